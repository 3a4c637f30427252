{"id": "C01", "title": "StringSet behaves as a mathematical set", "statement": "After any sequence of Add, AddAll, Remove, RemoveAll and Clear calls on a set built by NewStringSet, Contains(k) is true exactly when k was put in more recently than it was taken out; ContainsAny/ContainsAll quantify Contains; Size is the number of distinct members; Equals holds exactly for sets with the same members; Slice lists every member once in strictly increasing byte order whatever the map iteration order; Join is Slice joined by the separator.", "quantifier": "every finite history of operations, every key, every map iteration order", "why_tests_cant": "Histories and strings are unbounded and Go randomises map iteration, so no finite test covers every order.", "anchors": ["util/set.go: StringSet, NewStringSet, Add, AddAll, Contains, ContainsAny, ContainsAll, Remove, RemoveAll, Clear, Slice, Join, Equals, Size"]}
{"id": "C02", "title": "MultiMap keeps insertion order and RemoveValue removes the value", "statement": "After any history of Put, RemoveKey and Clear, Get(k) returns the values put under k since the last removal in insertion order, and ContainsKey/Keys/Empty agree with it. After RemoveValue(k, v), Get(k) no longer contains v and the other values keep their order; the key disappears when nothing is left.", "quantifier": "every history of operations, every key and value, including values stored several times under one key", "why_tests_cant": "RemoveValue edits the slice it is iterating over, so its effect depends on the number and position of duplicates; all lists must be covered.", "anchors": ["util/multimap.go: SMultiMap.Put, Get, Keys, ContainsKey, Empty, RemoveKey, RemoveValue, Clear"]}
{"id": "C03", "title": "Memoized name function calls the original once per key", "statement": "For every sequence of calls to a memoized function, the wrapped function runs exactly once for each distinct key, in order of first use, and every call returns the value produced by that first run, even if the wrapped function is stateful.", "quantifier": "every call history and every (possibly stateful) wrapped function", "why_tests_cant": "Depends on unbounded call histories and on functions whose answers change between calls.", "anchors": ["util/memoization.go: NewStringMemoizer"]}
{"id": "C04", "title": "Written column type reads back as the same type, size and scale", "statement": "For every column type that the tool accepts and every size and scale, parsing the text produced by Column.Format gives back the same type name, size and scale.", "quantifier": "every type name, every 16-bit size and scale", "why_tests_cant": "The input space of names, sizes and scales is too large to enumerate and the parser is an unanchored regular expression.", "anchors": ["util/types.go: ParseType", "format/octopus/column.go: Column.Format", "format/octopus/types.go"]}
{"id": "C05", "title": "Type normalization is idempotent, case-insensitive and total on documented names", "statement": "Normalizing a column type twice is the same as once; the result does not depend on letter case; every documented type name is mapped to a valid octopus type of the documented kind; a valid type is left unchanged.", "quantifier": "every type string", "why_tests_cant": "Ranges over all strings and all case variants.", "anchors": ["format/octopus/column.go: NormalizeType, toNormalizedType", "format/octopus/types.go: IsValidColType", "docs/octopus-format.md: DataTypes"]}
{"id": "C06", "title": "Schema.Normalize sorts, preserves and validates", "statement": "When Schema.Normalize returns nil, the tables are a permutation of the originals ordered by group then name, every column has a non-empty name, a valid type, only integer columns are auto-incremental, enum columns have at least one and set columns 1 to 64 values, and nothing except type spelling and rejected auto-increment flags has changed. It returns an error exactly when some column can not be made valid. A second Normalize changes nothing.", "quantifier": "every schema, every outcome of the unstable sort", "why_tests_cant": "Schemas are unbounded and sort.Sort is not stable, so several orders are allowed for equal keys.", "anchors": ["format/octopus/table.go: Schema.Normalize, TableSlice", "format/octopus/column.go: NormalizeType, Validate"]}
{"id": "C07", "title": "LoadSchema never hands out an invalid schema", "statement": "If LoadSchema returns a schema without an error, every column of that schema is valid and has a normalized type.", "quantifier": "every schema file content", "why_tests_cant": "The failing case depends on which column of which table is invalid; all positions must be covered.", "anchors": ["format/octopus/io.go: LoadSchema", "format/octopus/table.go: Schema.Normalize"]}
{"id": "C08", "title": "Default and on-update values keep the function/literal distinction", "statement": "A default (or on-update) set through SetDefaultValueFn is read back by GetDefaultValue as the same function name flagged as a function; one set through SetDefaultValue is read back as the same literal not flagged as a function.", "quantifier": "every value string and every function name", "why_tests_cant": "Ranges over all strings; the encoding puts a marker inside the value itself.", "anchors": ["format/octopus/column.go: SetDefaultValue, SetDefaultValueFn, GetDefaultValue, SetOnUpdate, SetOnUpdateFn, GetOnUpdate, FnPrefix"]}
{"id": "C09", "title": "Saving and loading a schema loses nothing", "statement": "If ToJson succeeds, FromJson of its output gives back the normalized schema: same author, name, version and the same tables, columns, references and indices in the same order. Fields that are omitted when empty come back as empty.", "quantifier": "every schema", "why_tests_cant": "All combinations of present and omitted fields over unbounded nested lists.", "anchors": ["format/octopus/table.go: Schema.ToJson, FromJson, Table, Index", "format/octopus/column.go: Column, Reference"]}
{"id": "C10", "title": "Name lookups agree with each other and with the schema", "statement": "TableByName/ColumnByName return an element with that name exactly when one exists; with distinct names they agree with TablesByName/ColumnNameMap; FindReference returns the (table, column) pair exactly when both exist; PrimaryKeyNameSet and UniqueKeyNameSet hold exactly the names of flagged columns.", "quantifier": "every schema, every name", "why_tests_cant": "Unbounded schemas; first-wins versus last-wins only differ on duplicates.", "anchors": ["format/octopus/table.go: TableByName, TablesByName, ColumnByName, ColumnNameMap, FindReference, PrimaryKeyNameSet, UniqueKeyNameSet, IndexByName"]}
{"id": "C11", "title": "Groups lists each used group once, sorted", "statement": "Schema.Groups returns exactly the groups used by the tables, each once, in increasing order.", "quantifier": "every schema", "why_tests_cant": "Unbounded schemas and random map order.", "anchors": ["format/octopus/table.go: Schema.Groups"]}
{"id": "C12", "title": "The group option selects exactly the named groups", "statement": "With an empty groups option every table is selected; otherwise a table is selected exactly when its group equals one of the comma separated names.", "quantifier": "every option string, every table", "why_tests_cant": "Ranges over all strings; splitting corner cases such as empty and trailing tokens matter.", "anchors": ["format/octopus/filter.go: GetTableFilterFn"]}
{"id": "C13", "title": "Prefix option never crashes and maps groups to prefixes", "statement": "NewPrefixMapper accepts every option string without a panic. A string without ':' is the prefix of every group; otherwise a listed group gets its own prefix (the last one listed) and an unlisted group gets none.", "quantifier": "every option string, every group", "why_tests_cant": "The crash needs a mixed option string; all strings must be covered.", "anchors": ["format/common/prefix.go: NewPrefixMapper, GetPrefix"]}
{"id": "C14", "title": "Annotation option never crashes and maps groups to annotations", "statement": "NewAnnotationMapper accepts every option string without a panic. Without ':' the whole string is the one annotation of every group; otherwise a listed group gets its ';' separated annotations and an unlisted group gets none.", "quantifier": "every option string, every group", "why_tests_cant": "Same as for the prefix option.", "anchors": ["format/common/annotation.go: NewAnnotationMapper, GetAnnotations"]}
{"id": "C15", "title": "File formats are recognised by extension whatever the letter case", "statement": "GetFileFormat depends only on the part of the base name after its last dot, compared without case; LoadSchema accepts exactly .json and .ojson files.", "quantifier": "every file name", "why_tests_cant": "All strings, including dots in directories and missing extensions.", "anchors": ["format/common/formats.go: GetFileFormat, GetFileFormatIfNotSet", "format/octopus/io.go: LoadSchema"]}
{"id": "C16", "title": "A schema compared with itself has no differences", "statement": "Comparing a schema with distinct table and column names with itself yields no change set, for both the generic and the Liquibase diff, with or without comments, for every group filter that keeps all tables.", "quantifier": "every schema, every option", "why_tests_cant": "Unbounded schemas and options.", "anchors": ["format/diff/diff.go: getDiff, diffTable, diffColumn", "format/liquibase/diff.go: Diff.generate"]}
{"id": "C17", "title": "Change set ids are distinct", "statement": "All change sets in one diff result, and all change sets of one generated or diffed Liquibase file, have pairwise different ids.", "quantifier": "every pair of schemas, every option, every map iteration order", "why_tests_cant": "Ids are produced by a mutable counter that is bumped and reverted along data-dependent paths; Go map order is random.", "anchors": ["format/diff/changeset.go: ChangeSetID", "format/diff/diff.go: getDiff", "format/liquibase/generator.go: LqId, generateAll", "format/liquibase/diff.go"]}
{"id": "C18", "title": "Every table is dropped, renamed, kept or created exactly once", "statement": "Without a group filter, each table name that exists only in the old schema is reported exactly once as dropped or as the source of a rename; each that exists only in the new schema exactly once as created or as the target of a rename; names in both are never dropped, created or renamed. A rename is only reported between tables with equal columns.", "quantifier": "every pair of schemas with distinct table names, every map iteration order", "why_tests_cant": "Greedy rename matching over unbounded sets; all combinations must be covered.", "anchors": ["format/diff/diff.go: getDiff", "format/liquibase/diff.go: generate"]}
{"id": "C19", "title": "A group-filtered diff only speaks about the selected groups", "statement": "With a group filter, no change is reported for a table whose group is not selected in either schema.", "quantifier": "every pair of schemas, every filter", "why_tests_cant": "Needs a table outside the selected groups combined with any change elsewhere.", "anchors": ["format/diff/diff.go: getDiff lines 38-57, 85-93", "format/liquibase/diff.go: generate"]}
{"id": "C20", "title": "The diff reports every column added to an existing table", "statement": "If a table exists in both schemas and the new one has a column that is neither in the old one nor a rename, the generic diff (Flyway, Markdown) contains an add-column change for it.", "quantifier": "every pair of tables", "why_tests_cant": "Must hold whatever other changes accompany it.", "anchors": ["format/diff/diff.go: diffTable lines 233-252", "format/diff/changeset.go: AddColumn"]}
{"id": "C21", "title": "Column attribute changes are reported exactly when they differ", "statement": "For a column present in both tables, the generic diff reports a type change iff type, size or scale differ, a not-null change iff the flags differ, likewise auto-increment and default, and a comment change iff comments are enabled and differ; a column with equal attributes yields nothing.", "quantifier": "every pair of columns, both comment settings", "why_tests_cant": "All combinations of attribute values.", "anchors": ["format/diff/diff.go: diffColumn"]}
{"id": "C22", "title": "Flyway SQL moves auto-increment in the right direction", "statement": "The SQL for an auto-increment change turns auto-increment on when the new column has it and off when it does not.", "quantifier": "every table and column", "why_tests_cant": "Must hold for all names and types.", "anchors": ["format/diff/mysql.go: toSetAutoIncrementSQL"]}
{"id": "C23", "title": "Every change produces SQL in the Flyway script", "statement": "Every change in a diff result contributes at least one SQL statement to the Flyway script, in change order, with one blank line after each change set.", "quantifier": "every diff result", "why_tests_cant": "All change kinds and all sequences.", "anchors": ["format/diff/mysql.go: ToSQL", "format/diff/flyway.go: FlywayChangeSetWriter.Write"]}
{"id": "C24", "title": "The Markdown report mentions every change exactly once under its table", "statement": "The Markdown diff has one section per affected table, sections sorted by name without repetition, and under each exactly the changes of that table in their original order.", "quantifier": "every diff result, every map iteration order", "why_tests_cant": "Unbounded results; the grouping uses a randomly ordered map.", "anchors": ["format/diff/markdown.go: MarkdownChangeSetWriter.Write", "util/multimap.go"]}
{"id": "C25", "title": "Applying the Liquibase diff turns the old database into the new one", "statement": "Running the change log produced by the Liquibase diff against a database that has the old schema succeeds and leaves the tables, columns (type, nullability, default, auto-increment), primary keys and unique constraints of the new schema.", "quantifier": "every pair of well-formed schemas, every option, every map iteration order", "why_tests_cant": "A statement about all schema pairs and the cumulative effect of an unbounded change sequence.", "anchors": ["format/liquibase/diff.go: generate, diffTable, diffColumn", "format/liquibase/generator.go: newCreateTableChangeSet"]}
{"id": "C26", "title": "The Liquibase diff never drops a constraint that does not exist and has no empty change set", "statement": "A dropUniqueConstraint is emitted only for a table whose old version has unique columns, and every change set contains at least one change.", "quantifier": "every pair of schemas", "why_tests_cant": "Needs all combinations of old and new unique/primary key sets.", "anchors": ["format/liquibase/diff.go: diffTable lines 224-234, 278-300"]}
{"id": "C27", "title": "Running the generated Liquibase change log creates exactly the selected tables", "statement": "Executing the output of the Liquibase generator on an empty database succeeds and creates one table per selected schema table, in order, with the same columns, primary key and unique constraint.", "quantifier": "every schema with distinct names, every filter, suffix and comment setting", "why_tests_cant": "Unbounded schemas and options.", "anchors": ["format/liquibase/generator.go: generateAll, newCreateTableChangeSet, newLqColumn"]}
{"id": "C28", "title": "Added columns are placed where the new schema has them", "statement": "Executing the addColumn changes of the Liquibase diff, honouring afterColumn, gives the column order of the new table.", "quantifier": "every table and every set of added columns", "why_tests_cant": "All interleavings of existing and new columns.", "anchors": ["format/liquibase/generator.go: newAddColumn"]}
{"id": "C29", "title": "Exported MySQL DDL is well-formed for every table", "statement": "Each exported CREATE TABLE lists one definition per column in order, then PRIMARY KEY with exactly the primary key columns if any, then one UNIQUE KEY with exactly the unique columns if any, then one INDEX per index; every definition except the last ends with a comma and the last does not.", "quantifier": "every schema, filter and suffix", "why_tests_cant": "Unbounded tables; comma placement depends on which optional parts are present.", "anchors": ["format/mysql/exporter.go: Export, exportTable"]}
{"id": "C30", "title": "MySQL export then import keeps the column type", "statement": "For every octopus type, exporting a column to DDL and importing the resulting column definition gives the same type, size, scale and values.", "quantifier": "every type, size, scale and value list", "why_tests_cant": "Combination of two independent mappings over all sizes.", "anchors": ["format/mysql/exporter.go: ToMysqlColumnType, formatColumnType", "format/mysql/importer.go: columnType, columnValues"]}
{"id": "C31", "title": "Different tables give different MySQL DDL", "statement": "Two tables that differ in a column name, comment or default value are never exported to the same DDL text.", "quantifier": "every pair of tables", "why_tests_cant": "A statement about all pairs of strings; quoting is needed for it to hold.", "anchors": ["format/mysql/exporter.go: ColumnConstraints, exportTable, quote"]}
{"id": "C32", "title": "MySQL import keeps the table structure", "statement": "Importing parsed CREATE TABLE statements yields one table per statement that is not excluded, in order, one column per definition in order; a column is primary key iff declared so in its options or in a PRIMARY KEY constraint, unique iff in a UNIQUE constraint, and the last NULL/NOT NULL-like option decides nullability.", "quantifier": "every list of parsed statements, every option order", "why_tests_cant": "All option orders and constraint combinations.", "anchors": ["format/mysql/importer.go: TableX.Enter, column"]}
{"id": "C33", "title": "Exporting to Excel and importing again gives the same schema", "statement": "Writing a schema to xlsx and reading it back yields the same tables per group with the same columns, attributes, references and indices.", "quantifier": "every schema", "why_tests_cant": "Round trip over unbounded schemas and strings.", "anchors": ["format/xlsx/exporter.go: Export, fillGroupSheet, getColumnAttributes, getColumnReference", "format/xlsx/importer.go: readGroupSheet, parseAttributes, parseReference"]}
{"id": "C34", "title": "The null column option does not change what is read back", "statement": "Whether the workbook is written with a 'nullable' or a 'not null' column, reading it back gives the same schema.", "quantifier": "every schema, both settings", "why_tests_cant": "All columns and both encodings.", "anchors": ["format/xlsx/exporter.go: fillGroupSheet", "format/xlsx/importer.go: readGroupSheet"]}
{"id": "C35", "title": "On-update values survive the Excel attributes column", "statement": "The attributes written for a column contain its on-update value, and reading them gives back its auto-increment flag, default and on-update values.", "quantifier": "every column", "why_tests_cant": "Ranges over all default and on-update strings.", "anchors": ["format/xlsx/exporter.go: getColumnAttributes", "format/xlsx/importer.go: parseAttributes"]}
{"id": "C36", "title": "Importing an octopus v1 file keeps every column attribute", "statement": "Importing a v1 schema keeps the name, description, size, scale, flags, default value and reference of every column, and its class name for every table.", "quantifier": "every v1 schema", "why_tests_cant": "All attribute combinations.", "anchors": ["format/ojson/importer.go: ImportJSON, fromOjsonTable, fromOjsonColumn", "format/ojson/table.go: Normalize, normalizeColumnType"]}
{"id": "C37", "title": "DBML output contains every reference exactly once and no inline forward reference", "statement": "Each column reference appears exactly once in the DBML output, inline only if the target table was already defined above, otherwise as a separate Ref line at the end.", "quantifier": "every schema", "why_tests_cant": "Depends on table order and reference graph (cycles, self references).", "anchors": ["format/dbml/exporter.go: exportToString"]}
{"id": "C38", "title": "DBML export honours the group option", "statement": "With a group option, the DBML output defines exactly the tables of the selected groups.", "quantifier": "every schema, every filter", "why_tests_cant": "All schemas.", "anchors": ["format/dbml/exporter.go: exportToString, Option.TableFilter", "docs/dbml.md"]}
{"id": "C39", "title": "Protobuf field tags are unique and stable", "statement": "In every generated message the column fields have tags 1..n in column order and all relation tags are distinct, positive and different from all field tags, for every start and direction option.", "quantifier": "every table, every relation tag start and direction", "why_tests_cant": "Arithmetic over all counts and option values.", "anchors": ["format/protobuf/generator.go: newPbMessage"]}
{"id": "C40", "title": "Protobuf generation does not crash on any schema", "statement": "Generating protobuf for a schema terminates without a panic, also when a reference names a table that does not exist.", "quantifier": "every schema", "why_tests_cant": "All reference graphs.", "anchors": ["format/protobuf/generator.go: newPbMessage, getMessageName"]}
{"id": "C41", "title": "StarUML import does not crash and keeps every entity", "statement": "Importing a StarUML project never panics; each entity of the first data model becomes one table, each column one column in order; a reference names the target column and its table.", "quantifier": "every project tree", "why_tests_cant": "All trees, including dangling references.", "anchors": ["format/staruml/importer.go: toSchema, walkElement, findById, findByType"]}
{"id": "C42", "title": "PlantUML output is balanced with one relation per reference", "statement": "The PlantUML output starts with @startuml and ends with @enduml, has one entity block per table with one line per column, at most one separator per entity placed before the first non-primary-key column, and one relation line per reference.", "quantifier": "every schema", "why_tests_cant": "Unbounded schemas.", "anchors": ["format/plantuml/generator.go: Generate, getColumnDef, getRelationshipType"]}
{"id": "C43", "title": "QuickDBD output lists every column once with its flags", "statement": "The QuickDBD output has for each table its title, an underline of the same length as its name, one line per column in order whose flags reflect the column, and a blank line.", "quantifier": "every schema", "why_tests_cant": "Unbounded schemas.", "anchors": ["format/quickdbd/exporter.go: Export, getTableDef, getColumnDef"]}
{"id": "C44", "title": "GORM embedding covers each column once", "statement": "Every column of a table ends up in exactly one place of the generated struct: covered by one embedded model or as a field; an embedded model is used only if the table has all of its columns.", "quantifier": "every table, every set of embedded models, every map iteration order", "why_tests_cant": "The result depends on the random iteration order of the model map.", "anchors": ["format/gorm/gorm_model.go", "format/gorm/gorm.go: NewGoStruct"]}
{"id": "C45", "title": "GORM output does not depend on Go's map order", "statement": "Generating GORM code twice for the same schema and embed option gives the same output.", "quantifier": "every schema and embed option, every map iteration order", "why_tests_cant": "Map iteration order is chosen at random by the runtime.", "anchors": ["format/gorm/gorm_model.go"]}
{"id": "C46", "title": "SQLAlchemy files import everything they use", "statement": "Each generated Python file imports every SQLAlchemy name that its classes use, in single-file and in one-file-per-table mode.", "quantifier": "every schema, both modes", "why_tests_cant": "Needs every sequence of tables; import state is carried from file to file.", "anchors": ["format/sqlalchemy/generator.go: Generate", "format/sqlalchemy/sqlalchemy.go"]}
{"id": "C47", "title": "JPA repositories can be generated for every table", "statement": "Generating Kotlin JPA classes and repositories never crashes; a table with several primary key columns gets a composite id class.", "quantifier": "every schema", "why_tests_cant": "Includes tables without a primary key.", "anchors": ["format/jpa/kotlin-gen.go: generateRepository", "format/jpa/kotlin.go"]}
{"id": "C48", "title": "GraphQL id fields and nullability follow the schema", "statement": "A GraphQL type has one field per column in order; the primary key of a single-key table has type ID!; any other field is marked non-null exactly when the column is not null.", "quantifier": "every table", "why_tests_cant": "All columns and key combinations.", "anchors": ["format/graphql/generator.go: NewClass, NewField"]}
{"id": "C49", "title": "The embed option can switch the default GORM model off", "statement": "With the documented option '--embed gorm.Model:' no generated struct embeds gorm.Model.", "quantifier": "every schema", "why_tests_cant": "Must hold for all tables; the registry is global state shared by all tables.", "anchors": ["format/gorm/gorm_model.go: parseEmbeddedModelDefinition, registerEmbeddedModel, extractEmbeddedModels", "docs/gorm.md: --embed option"]}
{"id": "C50", "title": "Flyway SQL never drops a primary key that does not exist", "statement": "DROP PRIMARY KEY is emitted only if the old table has a primary key, and ADD PRIMARY KEY lists exactly the new primary key columns.", "quantifier": "every pair of tables", "why_tests_cant": "All combinations of old and new key sets.", "anchors": ["format/diff/mysql.go: toUpdatePrimaryKeySQL"]}
{"id": "C51", "title": "Documented Excel reference symbols give usable references", "statement": "A reference cell '{symbol}{table}.{column}' with symbol '>', '<' or '-' is imported as a reference to that table and column with the documented relationship, so that looking it up in the schema finds the target.", "quantifier": "every table and column name", "why_tests_cant": "Ranges over all names.", "anchors": ["format/xlsx/importer.go: parseReference", "docs/xlsx.md: table/ref. column"]}
{"id": "C52", "title": "Documented Excel attributes are recognised", "statement": "A column whose attributes cell is written as documented ('autoinc', 'default={value}', 'class={value}') is imported with that attribute.", "quantifier": "every attribute cell built from the documented forms", "why_tests_cant": "Ranges over all values.", "anchors": ["format/xlsx/importer.go: parseAttributes, readGroupSheet", "docs/xlsx.md: attributes column"]}
{"id": "C53", "title": "Table comment, primary key and unique constraint changes are reported exactly when they differ", "statement": "For a table in both schemas, the generic diff reports a comment change iff comments are enabled and the comments differ, a primary key change iff the sets of key columns differ, and it drops (creates) the unique constraint iff the sets of unique columns differ and the old (new) one is not empty; each at most once.", "quantifier": "every pair of schemas with distinct names, every option, every map iteration order", "why_tests_cant": "Sets of columns and map iteration orders are unbounded.", "anchors": ["format/diff/diff.go: diffTable"]}
{"id": "C54", "title": "MySQL DDL export then import gives back the tables", "statement": "Reading the exported DDL with a MySQL grammar and importing the parsed statements gives back every selected table that is not excluded, in order, with all column attributes, keys and indices; only descriptions, groups, class names and references are lost.", "quantifier": "every schema, filter, suffix and exclusion list", "why_tests_cant": "The text goes through quoting, a grammar and two independent type mappings for unbounded tables.", "anchors": ["format/mysql/exporter.go: Export", "format/mysql/importer.go: ImportSql, TableX.Enter"]}
{"id": "C55", "title": "Column-level UNIQUE is imported", "statement": "A column declared UNIQUE in its own definition is imported as a unique column.", "quantifier": "every column definition and option order", "why_tests_cant": "All option combinations.", "anchors": ["format/mysql/importer.go: column"]}
{"id": "C56", "title": "Exported MySQL DDL is read back with the same meaning", "statement": "A reader following MySQL's lexical rules and CREATE TABLE grammar accepts the exported text and finds exactly one statement per selected table, with the same columns, types, options and keys.", "quantifier": "every schema, filter and suffix", "why_tests_cant": "All names, comments and default values; quoting matters.", "anchors": ["format/mysql/exporter.go: exportTable, ToMysqlColumnType, ColumnConstraints, quote"]}
{"id": "C57", "title": "Flyway SQL for an added column is valid MySQL", "statement": "The SQL the Flyway writer prints for an AddColumn change is an ALTER TABLE statement that adds the column with its type and constraints.", "quantifier": "every table and column", "why_tests_cant": "Must hold for all names, types and constraints.", "anchors": ["format/diff/mysql.go: toAddColumnSQL"]}
{"id": "C58", "title": "A NOT NULL change in Flyway SQL keeps the rest of the column", "statement": "MODIFY replaces the whole column definition, so the statement printed for a NOT NULL change must repeat default, ON UPDATE, AUTO_INCREMENT and comment of the new column.", "quantifier": "every table and column", "why_tests_cant": "All combinations of attributes.", "anchors": ["format/diff/mysql.go: toSetNotNullConstraintSQL"]}
{"id": "C59", "title": "DBML column defaults are legal DBML values", "statement": "The column lines of the DBML output are legal DBML and each default reads back as the column's default value: a quoted text for text types, a number, true, false or null otherwise.", "quantifier": "every valid column with plain names", "why_tests_cant": "Every type and default value.", "anchors": ["format/dbml/exporter.go: exportToString", "util/types.go: IsStringType"]}
{"id": "C60", "title": "Protobuf relation tag options take effect", "statement": "With --relationTagStart s above the column tags the relation tags are s, s+1, ...; with --relationTagDecr they go down from s.", "quantifier": "every table, start tag and direction", "why_tests_cant": "Arithmetic over all counts and option values; the existing test covers one message.", "anchors": ["format/protobuf/generator.go: newPbMessage", "format/protobuf/cli.go: Action", "docs/protobuf.md: relationTagDecr, relationTagStart"]}
{"id": "C61", "title": "The protobuf file describes the selected tables", "statement": "The generated text is a proto3 file with the given package and go_package; it has one message per selected table, one field per column in order with the matching scalar type and one field per reference, repeated exactly for one-to-many; the timestamp definitions are imported exactly if a datetime column is selected.", "quantifier": "every schema, naming function, filter, prefix and tag option", "why_tests_cant": "The text has to be right for every combination of columns, references and options.", "anchors": ["format/protobuf/generator.go: Generate, generateProto, newPbField, newPbMessage"]}
{"id": "C62", "title": "Protobuf files are self-contained", "statement": "Every type used in the generated file is a proto3 scalar, a message of the file or imported.", "quantifier": "every schema and group filter", "why_tests_cant": "All reference graphs and filters.", "anchors": ["format/protobuf/generator.go: Generate, newPbMessage"]}
{"id": "C63", "title": "StarUML column sizes are imported", "statement": "The size of an imported column is the element's length, given as a text or as a number; without a length it is the size in the type text.", "quantifier": "every column element", "why_tests_cant": "There is no test of the importer; needs all forms of the length member.", "anchors": ["format/staruml/importer.go: toSchema", "util/string.go: ToInt"]}
{"id": "C64", "title": "GORM file describes the schema", "statement": "The generated Go file, read back, declares one struct per selected table with the documented Go type and exactly the tags of each column, one association per resolvable reference, and a TableName method returning the table name.", "quantifier": "every schema whose names are words, every option, every naming function and map iteration order", "why_tests_cant": "The text must be right for every combination of column attributes, indices, models and options.", "anchors": ["format/gorm/generator.go: Generate, GenerateStruct", "format/gorm/gorm.go"]}
{"id": "C65", "title": "GORM files import exactly the packages they use", "statement": "Every package used in the generated Go file is imported and every import is used (Go rejects unused imports).", "quantifier": "every schema", "why_tests_cant": "Needs every mixture of column types, nullability and embedded models.", "anchors": ["format/gorm/gorm.go: NewGoField", "format/gorm/generator.go: Generate"]}
{"id": "C66", "title": "GORM generations are independent of each other", "statement": "The embed option of one generation does not change the output of a later generation in the same process.", "quantifier": "every sequence of generations", "why_tests_cant": "Needs sequences of calls on shared global state.", "anchors": ["format/gorm/gorm_model.go: registerEmbeddedModel, embeddedModels", "format/gorm/generator.go: Generate"]}
{"id": "C67", "title": "SQLAlchemy files describe the tables", "statement": "The generated Python file, read back, declares one class per selected table with its table name, one attribute per column mapped to that column with the documented type and exactly the keyword arguments of the column, and the unique constraint; in one-file-per-table mode each file declares exactly the class of its table.", "quantifier": "every schema whose names are words and whose column types have a SQLAlchemy counterpart, every option, every naming function", "why_tests_cant": "The text must be right for every combination of column attributes, names and options.", "anchors": ["format/sqlalchemy/generator.go: Generate, GenerateClass", "format/sqlalchemy/sqlalchemy.go: NewSaField, NewSaClass"]}
{"id": "C68", "title": "SQLAlchemy column definitions are valid", "statement": "Every Column definition in the generated Python is syntactically valid and calls its type class only with parameters that the class has.", "quantifier": "every schema with Octopus column types", "why_tests_cant": "Needs every column type with every size and scale.", "anchors": ["format/sqlalchemy/sqlalchemy.go: NewSaField", "format/sqlalchemy/generator.go: Generate"]}
{"id": "C69", "title": "SQLAlchemy attributes are never Python keywords", "statement": "No column is mapped to an attribute whose name is a Python keyword.", "quantifier": "every column name and naming function", "why_tests_cant": "Needs the whole keyword list against every spelling of a name.", "anchors": ["format/sqlalchemy/sqlalchemy.go: NewSaField", "util/python.go: IsPythonReservedWord"]}
{"id": "C70", "title": "SQLAlchemy unique constraints name columns of the table", "statement": "The unique constraint of a generated class lists exactly the unique columns of its table by column name.", "quantifier": "every schema and naming function", "why_tests_cant": "Shows only for columns whose attribute is renamed.", "anchors": ["format/sqlalchemy/generator.go: GenerateClass"]}
{"id": "C71", "title": "Kotlin JPA files describe the tables", "statement": "The generated Kotlin files, read back, declare for every selected table one entity class with its table annotation, one property per column in order with the documented type, nullability, default value and exactly the annotations of the column, the id class for composite keys, and one repository per table typed by its key.", "quantifier": "every schema whose names are Kotlin identifiers, every option, every naming function", "why_tests_cant": "The text must be right for every combination of column attributes, names and options.", "anchors": ["format/jpa/kotlin-gen.go: GenerateEntityClass, getFieldAnnotations, generateRepository", "format/jpa/kotlin.go: NewKotlinField, NewKotlinClass"]}
{"id": "C72", "title": "Kotlin JPA files are syntactically valid", "statement": "Every generated Kotlin file can be parsed.", "quantifier": "every schema with Octopus column types and word names", "why_tests_cant": "Needs every column type, every nullability in every key position and every name.", "anchors": ["format/jpa/kotlin-gen.go: GenerateEntityClass", "format/jpa/kotlin.go: NewKotlinField"]}
{"id": "C73", "title": "Kotlin JPA files are written below the output directory", "statement": "Every generated file lies below the output directory, in the directory of the package that it names.", "quantifier": "every option and output directory", "why_tests_cant": "Needs every combination of the package options.", "anchors": ["format/jpa/kotlin-gen.go: Generate, generateEntities, generateRepositories", "util/io.go: MkdirPackage"]}
{"id": "C74", "title": "Kotlin JPA files import exactly the library names they use", "statement": "Every library class used in a generated file is imported and every import of an entity file is used.", "quantifier": "every schema and option", "why_tests_cant": "Needs every mixture of column types and keys.", "anchors": ["format/jpa/kotlin-gen.go: GenerateEntityClass, generateRepository", "format/jpa/kotlin.go: NewKotlinField"]}
{"id": "C75", "title": "Kotlin JPA unique constraints name columns of the table", "statement": "Every column name in the uniqueConstraints of a generated entity is the column name of one of its properties.", "quantifier": "every schema and naming function", "why_tests_cant": "Shows only for columns whose property is renamed.", "anchors": ["format/jpa/kotlin-gen.go: GenerateEntityClass (template uniqueConstraints)"]}
{"id": "C76", "title": "Kotlin JPA entities implement the id of their interface", "statement": "An entity that implements the id interface declares a property id that overrides it.", "quantifier": "every schema and id interface", "why_tests_cant": "Needs every nullability of the key.", "anchors": ["format/jpa/kotlin-gen.go: GenerateEntityClass"]}
{"id": "C77", "title": "A saved schema file loads as the same schema", "statement": "Writing a schema to an octopus file and reading that file again gives the schema with its tables in order and its columns made valid, and every text unchanged.", "quantifier": "every schema, every text in it, every .json or .ojson file name", "why_tests_cant": "The text of the file depends on every character of every name and description: quotes, control characters, every UTF-8 form and every invalid byte.", "anchors": ["format/octopus/table.go: ToJson, ToFile, FromJson, Normalize", "format/octopus/io.go: LoadSchema"]}
{"id": "C78", "title": "A failing command leaves no files behind", "statement": "A command that ends with an error or a panic has written no file.", "quantifier": "every command, every option value, every input file", "why_tests_cant": "Needs every way in which every command can fail, at every point of its work.", "anchors": ["main.go", "format/*/cli.go: Action", "format/jpa/kotlin-gen.go: Generate"]}
{"id": "C79", "title": "Commands write exactly the files the output option names", "statement": "A successful command writes one file at the path given by the output option, or files in that directory, and nothing elsewhere.", "quantifier": "every command, every option value, every schema", "why_tests_cant": "The path depends on extension, letter case, schema and table names.", "anchors": ["format/gorm/cli.go: Action", "format/plantuml/cli.go: Action", "format/graphql/generator.go: Generate", "format/sqlalchemy/generator.go: Generate"]}
{"id": "C80", "title": "oct init writes the documented starter schema", "statement": "oct init writes the schema file shown in docs/init.md, to db.json if no output is given, and the file loads as a valid schema.", "quantifier": "every option value and output name", "why_tests_cant": "The documented text, the written text and what both load as must be compared character by character.", "anchors": ["format/octopus/cli.go: Action, CliFlags", "docs/init.md"]}
{"id": "C81", "title": "Files written by the import commands load again", "statement": "Whatever an import command writes to an octopus file name is loaded by LoadSchema as a valid schema.", "quantifier": "every input file that an import command accepts", "why_tests_cant": "Ranges over all SQL statements, StarUML projects, v1 files and workbooks, with any bytes in names and comments and any sizes.", "anchors": ["format/mysql/importer.go", "format/staruml/importer.go", "format/xlsx/importer.go", "format/ojson/importer.go", "format/octopus/io.go: LoadSchema"]}
{"id": "C82", "title": "Every documented option exists and has an effect", "statement": "Every option in the tables of docs is accepted by its command under the documented names and environment variable, no two options of a command share a name, an option documented as a flag needs no value, and the value of each option can change what is written.", "quantifier": "every command and every documented option; for an ignored option, every input and every two values", "why_tests_cant": "That an option never matters is a statement about all inputs; that it can matter needs a suitable input for each of over 80 options.", "anchors": ["format/*/cli.go: CliFlags, Action", "docs/*.md", "format/diff/cli.go", "format/protobuf/cli.go: Action"]}
{"id": "C83", "title": "Choosing groups is the same as removing the other tables", "statement": "A command run with the option groups writes exactly what it writes without it for the schema file from which the tables of the other groups were removed.", "quantifier": "every schema file, value of the option groups and value of the other options, for the commands that read the option", "why_tests_cant": "Equality of two runs for all schemas and all group lists cannot be tested exhaustively; failures depend on references between groups.", "anchors": ["format/mysql/exporter.go: Export", "format/jpa/kotlin-gen.go", "format/liquibase/generator.go: Generate", "format/sqlalchemy/generator.go: Generate", "format/gorm/generator.go", "format/protobuf/generator.go"]}
{"id": "C84", "title": "A file that follows the format description loads", "statement": "A JSON document built as docs/octopus-format.md describes loads, and the loaded schema is the described one up to the order of tables and the canonical column types.", "quantifier": "every document and schema related by the description; every file name accepted by LoadSchema", "why_tests_cant": "The documents form an infinite set: each member may be there or not, in any order, at three levels.", "anchors": ["docs/octopus-format.md:1-85,115-175", "format/octopus/io.go: LoadSchema", "format/octopus/table.go", "format/octopus/column.go"]}
{"id": "C85", "title": "Documented types have the documented MySQL type", "statement": "Every type named in docs/octopus-format.md, in any letter case, becomes after loading and exporting the MySQL type shown there, with size and scale where the type takes them.", "quantifier": "every column whose type is documented, with any size and scale", "why_tests_cant": "Any size and scale and any mix of letter case.", "anchors": ["docs/octopus-format.md:87-113", "format/octopus/column.go: NormalizeType", "format/mysql/exporter.go: ToMysqlColumnType"]}
{"id": "C86", "title": "No file content crashes the reader of schema files", "statement": "LoadSchema returns a schema or an error for every file content.", "quantifier": "every file content and file name", "why_tests_cant": "The contents form an infinite set; the failing ones need a null in one place.", "anchors": ["format/octopus/io.go: LoadSchema", "format/octopus/table.go: Normalize"]}
{"id": "C87", "title": "The strings of a loaded schema are UTF-8 text", "statement": "Whatever bytes a schema file has, every string of the schema LoadSchema returns is well-formed UTF-8.", "quantifier": "every file content and file name", "why_tests_cant": "Any byte sequence can occur in a file, including broken characters, escapes of half surrogate pairs and overlong forms.", "anchors": ["format/octopus/io.go: LoadSchema", "format/octopus/schema.go: FromJson"]}
{"id": "C88", "title": "An octopus v1 file is imported as it describes the schema", "statement": "A v1 JSON document whose columns have names and v1 types is imported without error, and the file written loads as the schema it describes, up to the order of tables and the new type names.", "quantifier": "every v1 document with members in any order, present or not; every option value", "why_tests_cant": "The documents form an infinite set and the whole chain of reading, converting, saving and loading has to agree.", "anchors": ["format/ojson/cli.go: Import", "format/ojson/schema.go", "format/ojson/table.go", "format/ojson/column.go", "docs/ojson.md"]}
{"id": "C89", "title": "A StarUML project is imported as it describes the schema", "statement": "A StarUML project whose columns have names and known types is imported without error, and the file written loads as the schema its first data model describes.", "quantifier": "every project document with any nesting, any further members and elements, and any values", "why_tests_cant": "The documents are trees of any depth with references anywhere.", "anchors": ["format/staruml/cli.go: Import", "format/staruml/importer.go", "format/staruml/staruml.go", "docs/staruml.md"]}
{"id": "C90", "title": "Layout and table order of schema files do not matter", "statement": "Every command that reads schema files ends the same way and writes the same files for two descriptions of the same schema, whatever the layout of the text, the order of members and the order of the tables.", "quantifier": "every command, every option value, all pairs of files describing the same schema with distinct table keys", "why_tests_cant": "Every layout and every permutation of the tables would have to be tried for every command.", "anchors": ["format/octopus/io.go: LoadSchema", "format/octopus/schema.go: Normalize", "main.go"]}
{"id": "C91", "title": "A loaded schema can be saved and loads again as the same schema", "statement": "A schema that LoadSchema returned can be saved with ToFile, and loading the file written gives the same schema and the same text when saved again.", "quantifier": "every file, every schema loaded from it", "why_tests_cant": "Quantifies over all files that load.", "anchors": ["format/octopus/io.go: LoadSchema", "format/octopus/schema.go: ToFile, ToJson, FromJson, Validate"]}
{"id": "C92", "title": "Comparing a file with itself reports no changes", "statement": "Each diff command, given the same schema as from and to, writes an empty report.", "quantifier": "every schema with distinct names, every option value", "why_tests_cant": "All schemas and all option values.", "anchors": ["format/diff/diff.go: getDiff", "format/diff/flyway.go", "format/diff/markdown.go", "format/liquibase/diff.go"]}
{"id": "C93", "title": "Commands are deterministic", "statement": "Running a command twice on the same files with the same options gives the same result, whatever order Go picks for iterating over maps and for equal elements when sorting.", "quantifier": "every command, all files, all option values, all iteration orders and sort functions", "why_tests_cant": "Go chooses the iteration order at random; a test sees one of them, and most tests have one entry per map.", "anchors": ["format/diff/diff.go: diffTable, diffSchema", "format/liquibase/diff.go", "format/gorm/generator.go", "format/xlsx/importer.go", "format/octopus/schema.go: Normalize"]}
{"id": "C94", "title": "A workbook written as documented is imported as described", "statement": "Importing an Excel workbook written as docs/xlsx.md describes (sheets, headings, table blocks, keys, attributes, references, indices) writes a schema file that loads as the schema the workbook describes.", "quantifier": "every workbook of the documented form, any blanks around cells, any sheet order, every option value", "why_tests_cant": "The documented form allows unboundedly many sheets, tables and spellings of cells.", "anchors": ["format/xlsx/importer.go", "docs/xlsx.md", "main.go"]}
{"id": "C95", "title": "Members of generated types have distinct names", "statement": "In every type that a generator writes (protobuf message, GORM struct, GraphQL type, SQLAlchemy class, Kotlin class) the members have distinct names, if the columns of each table have.", "quantifier": "every schema with distinct table and column names, every option, all naming functions", "why_tests_cant": "Whether two names meet after conversion, or with the names of references, models and methods, depends on all names of the schema.", "anchors": ["format/protobuf/generator.go", "format/gorm/generator.go", "format/graphql/generator.go", "format/sqlalchemy/generator.go", "format/jpa/kotlin-gen.go", "format/jpa/kotlin.go"]}
{"id": "C96", "title": "Generated types have distinct names", "statement": "The types in the generated file (for Kotlin: the generated files) have distinct names, if the tables have.", "quantifier": "every schema with distinct table names, every option, all naming functions", "why_tests_cant": "Whether two names meet after conversion, with prefixes, class names and names of the target language, depends on all names of the schema.", "anchors": ["format/protobuf/generator.go", "format/gorm/generator.go", "format/graphql/generator.go", "format/sqlalchemy/generator.go", "format/jpa/kotlin-gen.go", "format/jpa/kotlin.go"]}
{"id": "C97", "title": "Adding a table only adds to what is generated", "statement": "If tables are added anywhere in a schema, and none of them is one that was referred to before, then what is generated (MySQL statements, QuickDBD, PlantUML, DBML, GraphQL, protobuf, GORM structs, Kotlin files, workbook) only gets more lines, files or rows: none of those that were there is removed, changed or moved.", "quantifier": "every schema, every set of added tables and their positions, every option, all naming functions", "why_tests_cant": "It relates two runs on arbitrary schemas; a test compares a few pairs.", "anchors": ["format/mysql/exporter.go", "format/quickdbd/exporter.go", "format/plantuml/generator.go", "format/dbml/exporter.go", "format/graphql/generator.go", "format/protobuf/generator.go", "format/gorm/generator.go", "format/jpa/kotlin-gen.go", "format/xlsx/exporter.go"]}
{"id": "C98", "title": "Adding a table only adds to SQLAlchemy models and Liquibase change logs", "statement": "If tables are added anywhere in a schema, the SQLAlchemy file (or files) only gets more lines (more files), and the Liquibase change log only more change sets.", "quantifier": "every schema, every set of added tables and their positions, every option", "why_tests_cant": "It relates two runs on arbitrary schemas; a test compares a few pairs.", "anchors": ["format/sqlalchemy/generator.go", "format/liquibase/generator.go"]}
{"id": "C99", "title": "The exported MySQL DDL creates the described database", "statement": "Run on a MySQL server that has no tables of these names, the exported DDL creates, for every selected table, a table with exactly its columns in their order (type, NOT NULL, auto-increment, default, on update, comment), its primary key, its unique key and its indices, and touches nothing else; run again it changes nothing.", "quantifier": "every schema, table filter, unique-key suffix and server state", "why_tests_cant": "It composes export, SQL syntax and server behaviour over all schemas; a test compares a few texts and never runs them.", "anchors": ["format/mysql/exporter.go"]}
{"id": "C100", "title": "The Flyway script turns the old database into the new one", "statement": "Run on a database that the old schema describes, the Flyway script generated from the difference of two schemas runs without error and leaves a database that the new schema describes.", "quantifier": "every pair of schemas, filter, suffix, order of map iteration, and every database of the old schema", "why_tests_cant": "It composes diff, script text and server behaviour over all pairs of schemas; a test compares a few texts and never runs them.", "anchors": ["format/diff/diff.go", "format/diff/mysql.go", "format/diff/flyway.go", "format/mysql/exporter.go"]}
{"id": "C101", "title": "The diff commands compare the file \"from\" with the file \"to\"", "statement": "The diff commands read the two schema files named by the options, in this direction, restrict the new one to the chosen groups and write to the output path: a Flyway script that turns a database of the old file into one of the new file, a Liquibase change log that does the same, a Markdown report with both versions and every change.", "quantifier": "every pair of files, every value of the options, every order of map iteration", "why_tests_cant": "It composes the command line, the loader, the diff and a database server; the tests call the inner functions with schemas built in memory.", "anchors": ["format/diff/cli.go", "format/diff/diff.go", "format/diff/flyway.go", "format/liquibase/diff.go", "format/diff/markdown.go", "main.go"]}
{"id": "C102", "title": "A command fails without the options it needs", "statement": "Every command except init needs its input and output option, the diff commands need from, to and output; without one of them it fails and writes nothing, and it needs no other option.", "quantifier": "every command and every set of options", "why_tests_cant": "There are 19 commands and any subset of options; no test runs a command.", "anchors": ["format/mysql/cli.go", "format/diff/cli.go", "format/octopus/cli.go", "main.go"]}
{"id": "C103", "title": "export mysql and import mysql are inverse on files", "statement": "If the DDL file written by \"export mysql\" is imported with \"import mysql\", the resulting schema file loads as the tables of the chosen groups that are not excluded, with equal columns, keys and indices; on an empty server the DDL file creates the database of the chosen tables.", "quantifier": "every schema file, every value of the options", "why_tests_cant": "It composes two commands with three files; the tests of the two sides share no data.", "anchors": ["format/mysql/cli.go", "format/mysql/exporter.go", "format/mysql/importer.go", "format/octopus/io.go"]}
{"id": "C104", "title": "export xlsx and import xlsx are inverse on files", "statement": "If the workbook written by \"export xlsx\" is imported with \"import xlsx\", the resulting schema file loads as the same schema, whatever \"useNullColumn\" says; tables without a group are in the group Common.", "quantifier": "every schema file, every value of the options", "why_tests_cant": "It composes two commands with three files; the tests use one schema and no files.", "anchors": ["format/xlsx/cli.go", "format/xlsx/exporter.go", "format/xlsx/importer.go", "format/octopus/io.go"]}
{"id": "C105", "title": "Schema files are read as JSON texts", "statement": "A schema file is read exactly when it is a JSON text as RFC 8259 defines it, nested at most 10000 deep, and with the value the grammar gives it: numbers, escapes, surrogate pairs, white space. Any other content is an error. What the tool writes is such a text, whatever bytes the strings of the schema have.", "quantifier": "every file content, every schema", "why_tests_cant": "The texts form an infinite language; the tests read a few well-formed files.", "anchors": ["format/octopus/io.go", "format/octopus/table.go", "docs/octopus-format.md"]}
{"id": "C106", "title": "The options of the generators reach the generated files", "statement": "A run of a generator or exporter that succeeds reads the schema file given with \"input\", and the files it writes describe the tables of the given groups, with the value of every option in the place it is meant for: prefixes and annotations by group (the last one counts), prefixes to remove, packages, the embedded model, the suffix of unique names, the base class of entities, and the switches. The options are those of that command only.", "quantifier": "every schema file, every value of the options of generate gorm, kt, sqlalchemy, pb, liquibase, graphql, plantuml and export dbml, quickdbd", "why_tests_cant": "The actions have no tests; two options swapped in an action would leave all tests of the generators unchanged.", "anchors": ["format/gorm/cli.go", "format/jpa/cli.go", "format/sqlalchemy/cli.go", "format/protobuf/cli.go", "format/liquibase/cli.go", "format/graphql/cli.go", "format/plantuml/cli.go", "format/dbml/cli.go", "format/quickdbd/cli.go", "format/common/prefix.go", "format/common/annotation.go"]}
{"id": "C107", "title": "Generated types can hold every value of their column", "statement": "The type that a generated file gives to a column can hold every value which the column can have according to the documented column types, including null where the column is nullable: fields of Go structs, Kotlin properties, GraphQL fields, Protocol Buffers fields and SQLAlchemy columns. The tables that the exported MySQL DDL and the Liquibase change log create accept exactly these values.", "quantifier": "every schema, every column, every value of every column type, and all options of the generators", "why_tests_cant": "Types are looked up in tables per target; tests compare a few names of types and never ask for the largest number, the longest text or null.", "anchors": ["format/gorm/generator.go", "format/jpa/kotlin-gen.go", "format/graphql/generator.go", "format/protobuf/generator.go", "format/sqlalchemy/generator.go", "format/mysql/exporter.go", "format/liquibase/generator.go", "docs/octopus-format.md"]}
{"id": "C108", "title": "A database brought up version by version is the one made new", "statement": "Take any number of schema files, the DDL exported from the first and the script of \"diff flyway\" for every following one. Running the DDL on an empty server and then the scripts in order gives the database that the DDL exported from the last file makes on an empty server, but for the order of tables and of the columns in a primary key.", "quantifier": "every list of schema files, every suffix of unique names", "why_tests_cant": "A chain of versions has any length, and errors of one script show up in later ones; tests look at single changes of single tables.", "anchors": ["format/mysql/exporter.go", "format/mysql/cli.go", "format/diff/flyway.go", "format/diff/cli.go", "format/diff/diff.go"]}
{"id": "C109", "title": "Schemas come through MySQL DDL unchanged from the second time on", "statement": "Exporting a schema to MySQL DDL and importing it again may change it, as MySQL has fewer types and no groups. Exporting and importing the result once more changes nothing: the second import writes, byte for byte, the schema file of the first.", "quantifier": "every schema, all suffixes of unique names, excluded tables, authors and versions", "why_tests_cant": "That a conversion settles after one step holds for all combinations of types, sizes, flags and default values or it does not; tests try some columns and one step.", "anchors": ["format/mysql/exporter.go", "format/mysql/importer.go", "format/mysql/cli.go", "format/octopus/column.go", "format/octopus/table.go"]}
{"id": "C110", "title": "Schemas come through workbooks unchanged from the second time on", "statement": "A schema read from a workbook, whatever spellings, spaces and repeated attributes its cells have, is exported to a workbook from which the same schema is read: the second import writes, byte for byte, the schema file of the first.", "quantifier": "every workbook that can be imported, every order of the groups, both ways of writing nullable columns", "why_tests_cant": "The cells of a workbook are free text; that reading and writing settle after one step concerns all spellings of types, attributes and references, of which tests try a few.", "anchors": ["format/xlsx/exporter.go", "format/xlsx/importer.go", "format/xlsx/cli.go"]}
{"id": "C111", "title": "The MySQL DDL and the Liquibase change log make the same database", "statement": "For one schema, groups and suffix, the database that the exported DDL creates and the one that the generated change log creates on MySQL have the same tables with the same columns in the same order (names, NOT NULL, auto-increment, default and on-update values, comments if asked for), the same primary keys, unique keys and indices.", "quantifier": "every schema, every filter of groups, every suffix, with and without comments", "why_tests_cant": "Two generators written separately have to agree on every combination of keys, flags and default values; tests look at the text of each for a few tables and never compare the databases.", "anchors": ["format/mysql/exporter.go", "format/liquibase/generator.go", "format/liquibase/diff.go"]}
{"id": "C112", "title": "Generated models fit the database that the DDL creates", "statement": "For one schema, groups and unique-name suffix, the classes, entities and structs that the SQLAlchemy, Kotlin JPA and GORM generators write describe exactly the tables that the exported MySQL DDL creates: every model has the name of its table, the same columns in the same order with the same names, the same primary key, the same NOT NULL and auto-increment columns, and the same unique keys.", "quantifier": "every schema, every filter of groups, every suffix, every prefix and naming function", "why_tests_cant": "The models and the DDL come from generators written separately; that an ORM reads from a class what the DDL has made depends on the naming strategy, on which keyword arguments and tags are left out, and on where a constraint is written. Tests compare the text of each output for a few tables.", "anchors": ["format/mysql/exporter.go", "format/sqlalchemy/generator.go", "format/jpa/kotlin.go", "format/jpa/kotlin-gen.go", "format/gorm/generator.go"]}
{"id": "C113", "title": "No input crashes a command", "statement": "Whatever the contents of its input files and the values of its options, a command ends with its result or with an error message; it never panics with a stack trace.", "quantifier": "every command, every file system, every value of every option, every behaviour of the external packages", "why_tests_cant": "A panic is a property of all inputs at once: null entries, texts of options, references to missing tables or indices on expressions each need their own odd input, and tests use well-formed files.", "anchors": ["format/mysql/importer.go", "format/octopus/io.go", "format/ojson/importer.go", "format/staruml/staruml.go", "format/protobuf/generator.go", "format/jpa/kotlin-gen.go", "format/common/prefix.go", "format/common/annotation.go"]}
{"id": "C114", "title": "Comparing in the other direction reports the opposite changes", "statement": "The changes from one schema to another and the changes from the second to the first are opposite to each other: what one creates the other drops, renames are turned round, and each changed attribute is set back.", "quantifier": "every pair of schemas, every option, every iteration order of the maps", "why_tests_cant": "The comparison treats the two schemas differently (one is walked in order, the other looked up in maps and sorted sets), so symmetry depends on how renamed and dropped items are paired; tests compare in one direction only.", "anchors": ["format/diff/diff.go", "format/diff/changeset.go"]}
{"id": "C115", "title": "The Liquibase diff and the other diffs report the same changes", "statement": "For the same two schemas, groups, suffix and use of comments, the change log of the Liquibase diff says exactly the changes that the diff behind the Flyway script and the Markdown report finds, in the same order.", "quantifier": "every pair of schemas, every option, every iteration order of the maps, every behaviour of the number parser", "why_tests_cant": "The two comparisons are copies of each other that have been changed separately; a difference shows only for a kind of change that a test compares in both outputs, and no test looks at both.", "anchors": ["format/diff/diff.go", "format/diff/changeset.go", "format/liquibase/diff.go", "format/liquibase/generator.go"]}
{"id": "C116", "title": "A database brought up by change logs version by version is the one made new", "statement": "However many versions of a schema there are: running the change log that generate liquibase makes of the first version and then the change logs that diff liquibase makes of each version and the next gives the same database as running the change log that generate liquibase makes of the last version.", "quantifier": "every number of versions, every schema, every server, every iteration order of the maps, with and without comments", "why_tests_cant": "A test runs one change log on one database; that the state one log leaves is the state the next one expects is a statement about all sequences of logs, and the names of constraints that decide it are not in the schema.", "anchors": ["format/liquibase/generator.go", "format/liquibase/diff.go", "format/liquibase/cli.go", "format/diff/cli.go"]}
{"id": "C117", "title": "Tables without changes do not matter for a comparison", "statement": "Leaving out of both schemas any tables that both have with the same name, description and columns gives the same comparisons, with the same changes in the same order and the same ids, for the Flyway and Markdown reports and for the change logs.", "quantifier": "every pair of schemas, every set of unchanged tables, every position of them, every option, every iteration order of the maps", "why_tests_cant": "A test compares a few small schemas; that a table at any position among any others neither shifts ids nor takes part in the search for renamed tables needs all contexts.", "anchors": ["format/diff/diff.go", "format/diff/changeset.go", "format/liquibase/diff.go"]}
{"id": "C118", "title": "A migration keeps the values of the columns that stay", "statement": "Running the generated migration moves the values of every column of the old schema to the right place of the new one: values stay where they were if the new schema has that table and column, values of renamed tables and columns follow to a column with the same attributes, no two columns get mixed up, values are lost only with columns that are gone, and the places without old values are those that the migration makes.", "quantifier": "every pair of schemas with distinct names, every option, every iteration order of the maps, for change logs, reported changes and SQL scripts", "why_tests_cant": "A wrong order of two renamings or of a removal and a renaming loses or swaps values without any error; tests compare the texts of a few migrations and never run them over data, so only a trace through all statements for all pairs of schemas shows it.", "anchors": ["format/diff/diff.go", "format/diff/changeset.go", "format/liquibase/diff.go", "format/diff/flyway.go"]}
{"id": "C119", "title": "Upgrading version by version or in one go leaves the same values", "statement": "Running the change logs from version to version leaves the values of every column in the same places as the one change log from the first version to the last, and through any number of versions values stay in the columns that all versions have, move only to columns like theirs and are never mixed up.", "quantifier": "every sequence of schema files of any length, every world of external functions, every iteration order, with and without comments", "why_tests_cant": "The number of versions is unbounded and the trace of each value depends on every intermediate version; tests compare two versions at most and never run the logs over data.", "anchors": ["format/liquibase/diff.go", "format/diff/cli.go", "format/octopus/table.go"]}
{"id": "C120", "title": "Schema files can be put into other documents", "statement": "The file that is written for a schema is well-formed UTF-8 whatever bytes the names and descriptions have, with no control characters but line ends and none of the characters that have a meaning in HTML or end a line in scripts.", "quantifier": "every schema with any bytes in its strings, every importing command, every input file, every world of external functions", "why_tests_cant": "The strings are arbitrary bytes, and every byte and every sequence of bytes that is not a character needs its own case; tests write a few ASCII names.", "anchors": ["format/octopus/table.go", "format/mysql/importer.go", "format/xlsx/importer.go"]}
{"id": "C121", "title": "Nothing is reported exactly if the schemas agree", "statement": "A comparison finds no change exactly if both schemas have the same tables, and these the same columns with the same type, size, scale, null-ness, keys, default, auto-increment and, if asked for, descriptions; the diff commands then write reports without changes.", "quantifier": "every two schemas with distinct names, every filter, with and without comments, every iteration order", "why_tests_cant": "That nothing is reported is one answer for infinitely many pairs of schemas; a kind of difference that is overlooked only shows for pairs that differ in nothing else.", "anchors": ["format/diff/diff.go", "format/liquibase/diff.go", "format/diff/mysql.go", "format/diff/markdown.go", "format/diff/cli.go"]}
{"id": "C122", "title": "A schema that came back from its DDL or workbook shows no drift", "statement": "If a schema is exported and imported again, the diff commands report no change between the file before and the file after, in either direction.", "quantifier": "every valid schema with distinct names that the format can express, every file system, every option", "why_tests_cant": "Two commands write files and a third reads both; whether anything differs depends on every attribute of every column, and tests compare no files of different commands.", "anchors": ["format/mysql/exporter.go", "format/mysql/importer.go", "format/xlsx/exporter.go", "format/xlsx/importer.go", "format/diff/diff.go", "format/liquibase/diff.go"]}
{"id": "C123", "title": "Values of the wrong form are refused", "statement": "A schema file is read exactly if it is a JSON text whose values have the forms of the fields they are for, with numbers of 16 bits; for any other file the commands end with an error and write nothing. The same holds for files of version 1 and StarUML projects that are imported.", "quantifier": "every text, every file name, every option, every command that reads a schema file, a file of version 1 or a StarUML project", "why_tests_cant": "A value of the wrong form may be anywhere in a nested document, under any member, repeated or in any case; each of 60 fields needs its own check.", "anchors": ["format/octopus/table.go", "format/octopus/column.go", "format/octopus/io.go", "format/ojson/table.go", "format/ojson/column.go", "format/staruml/staruml.go", "format/staruml/importer.go"]}
{"id": "C124", "title": "What a command line asks for", "statement": "A command line runs a command exactly if it consists of the words of the command and options of the command, each under one of its names, after one or two dashes, with the value behind \"=\" or in the next argument. The command gets exactly the values given, and those of the environment variables for options that are not given. The order and the spelling of the options do not matter, and no other command line writes a file.", "quantifier": "every list of arguments, every environment, every command, every file", "why_tests_cant": "Values may look like options, options may be repeated or mixed with words, and each of 19 commands has its own options with aliases and variables; a test has one command line.", "anchors": ["main.go", "format/mysql/cli.go", "format/diff/cli.go", "format/jpa/cli.go", "format/gorm/cli.go"]}
{"id": "C125", "title": "Every option on a command line counts", "statement": "Every option on a command line has an effect on the values the command gets, or the command ends with an error and writes nothing: an unknown option, an option without a value, a switch with a value that is not boolean and an option under two names are refused.", "quantifier": "every list of options, every mistake behind them, every environment, every command", "why_tests_cant": "An option that is dropped without a message makes a command succeed with another result than the one asked for, which no test of the command itself sees.", "anchors": ["main.go", "format/diff/cli.go", "format/sqlalchemy/cli.go", "docs/sqlalchemy.md"]}
{"id": "C126", "title": "What an exporter or generator looks at", "statement": "For each exporter and generator there is a list of the attributes of schemas, tables and columns that what it writes depends on. Two schemas that agree in the listed attributes, and differ in any others, give the same files with the same content. Every attribute on the list does matter: there are two schemas that differ in nothing else and for which different files are written.", "quantifier": "every two schemas with the listed attributes in common, every command that reads one schema, all options", "why_tests_cant": "That an attribute has no effect is a statement about all pairs of schemas; tests compare the output for one schema with a text.", "anchors": ["format/mysql/exporter.go", "format/xlsx/exporter.go", "format/dbml/exporter.go", "format/quickdbd/exporter.go", "format/gorm/generator.go", "format/graphql/generator.go", "format/jpa/kotlin-gen.go", "format/liquibase/generator.go", "format/plantuml/generator.go", "format/protobuf/generator.go", "format/sqlalchemy/generator.go"]}
{"id": "C127", "title": "What a comparison looks at", "statement": "For each of the three comparisons there are two lists of attributes, one for the old schema and one for the new, that what it writes depends on. Changing other attributes of either schema changes nothing in what is written. Every attribute on the lists does matter: for some two schemas, changing nothing but this attribute changes what is written.", "quantifier": "every two pairs of schemas with the listed attributes in common, all options, every order of map iteration that depends on the keys only", "why_tests_cant": "Tests compare one old schema with one new schema; they do not show that an attribute is never looked at, which is how a kind of change goes unnoticed.", "anchors": ["format/diff/diff.go", "format/diff/flyway.go", "format/diff/markdown.go", "format/liquibase/diff.go"]}
{"id": "C128", "title": "Without the option comments, descriptions make no difference", "statement": "The comparisons and the Liquibase generator have an option comments to have descriptions in what they write. If it is not switched on, schemas that differ in nothing but descriptions of tables and columns give the same result.", "quantifier": "every two pairs of schemas that differ in descriptions only, all other options, every order of map iteration that depends on the keys only", "why_tests_cant": "Tests with the option off use schemas whose descriptions do not change, so an effect of a reworded description is not noticed.", "anchors": ["format/diff/diff.go", "format/diff/mysql.go", "format/diff/markdown.go", "format/liquibase/diff.go", "format/liquibase/generator.go", "format/liquibase/cli.go"]}
{"id": "C129", "title": "Protocol buffers of different versions understand each other", "statement": "If the tables of a schema only get columns at their end, and perhaps other tables are added, then every message of the old protobuf file is in the new one, with all its fields under the same names, types and numbers, and no number of the old file means something else in the new one.", "quantifier": "every schema and every version of it that has more columns at the end of its tables, all options and naming functions", "why_tests_cant": "Tests look at the file for one schema; numbers that move between versions only show when two files are compared, and in production when messages are misread.", "anchors": ["format/protobuf/generator.go", "format/protobuf/cli.go"]}
{"id": "C130", "title": "A comparison with an empty schema describes the whole schema", "statement": "The Liquibase change log from a schema without tables to another schema is the change log that is generated for the other schema, and the Flyway script consists of the lines of the exported MySQL DDL apart from empty lines, with the same values of the options that both commands have.", "quantifier": "every schema, all values of the common options, every order of map iteration", "why_tests_cant": "Tests compare each command with its own expected file; that two commands agree for all schemas cannot be seen from a few pairs of files.", "anchors": ["format/liquibase/diff.go", "format/liquibase/generator.go", "format/diff/diff.go", "format/diff/flyway.go", "format/diff/mysql.go", "format/mysql/exporter.go"]}
{"id": "C131", "title": "Adding a column only adds to generated files", "statement": "If columns are added to tables of a schema, every line of the file generated before is in the file generated afterwards, in the same order, and the rest are added lines (MySQL, QuickDBD, DBML, PlantUML, GraphQL).", "quantifier": "every pair of schemas that differ by added columns, anywhere in any of the tables, and all options", "why_tests_cant": "A test generates a file for one schema; which lines change when a column is added depends on where it is added and on keys, and no finite set of schemas covers that.", "anchors": ["format/mysql/exporter.go", "format/quickdbd/exporter.go", "format/dbml/exporter.go", "format/plantuml/generator.go", "format/graphql/generator.go"]}
{"id": "C132", "title": "A comparison with a schema without tables drops, or creates, each table once", "statement": "If the new schema has no tables, the Flyway script, the Liquibase change log and the report drop every table of the old schema exactly once, in alphabetical order, and contain nothing else, whatever the options are. If the old schema has no tables, the report says exactly that each table of the chosen groups is created.", "quantifier": "every schema, every value of every option, every order of map iteration", "why_tests_cant": "Tests compare the output for a few schemas; that nothing is left behind or added holds for all schemas only by proof.", "anchors": ["format/diff/diff.go", "format/diff/flyway.go", "format/diff/mysql.go", "format/diff/markdown.go", "format/liquibase/diff.go"]}
{"id": "C133", "title": "A v1 schema that is saved can be read again and says the same", "statement": "A schema of octopus v1 that is written as JSON is a document with exactly its members; reading it gives the schema back with its tables sorted by group and name, its types under their usual names and the auto-increment mark on integers only. Writing stops exactly if a column of a known type has no name. Writing what was read gives the same text, and importing it gives what importing the original gives.", "quantifier": "every v1 schema whose strings are UTF-8 and whose sizes are below 65536, every sorting function; for the last part every schema without two tables of the same group and name", "why_tests_cant": "The tests of the package save nothing; a round trip for all schemas cannot be tested.", "anchors": ["format/ojson/table.go", "format/ojson/column.go", "format/ojson/importer.go"]}
{"id": "C134", "title": "A v1 schema and the schema imported from it answer questions alike", "statement": "Lookups by name in a v1 schema find the first or last table or column of that name, the key sets hold the names of the marked columns, each once, and the groups are listed once and in order. The imported schema has the same groups, finds the same tables and columns, and has the same key sets. Two columns are the same but for their name in the v1 schema exactly if they are in the imported one.", "quantifier": "every v1 schema; for the lookups of the imported schema, every schema in which no two tables have the same name", "why_tests_cant": "Tests can compare a few schemas only, and the functions have none.", "anchors": ["format/ojson/table.go", "format/ojson/column.go", "format/ojson/importer.go", "format/octopus/table.go", "format/octopus/column.go"]}
{"id": "C135", "title": "The three texts for drawing tools show the same picture", "statement": "For a schema that all three can express, the DBML, PlantUML and QuickDBD texts show the same tables and the same columns, in the same order, with the same types, key marks, unique marks and NOT NULL marks, and the same references with the same kind; DBML and QuickDBD also show the same default values and descriptions, and PlantUML marks exactly the referring columns.", "quantifier": "every schema whose names are words, whose types are those of the format, and whose texts need no quoting in any of the three", "why_tests_cant": "The three generators share no code; tests compare each with a fixed text, and none compares them with each other.", "anchors": ["format/dbml/exporter.go", "format/plantuml/generator.go", "format/quickdbd/exporter.go"]}
{"id": "C136", "title": "A document of the Markdown writer reads as it was written", "statement": "Reading a document made of any calls of the Markdown writer gives one block for each call: headings of the level asked for, fenced code with its language and lines, and plain lines.", "quantifier": "every series of calls with any texts", "why_tests_cant": "Texts are unbounded; the functions for code have no tests.", "anchors": ["format/diff/markdown.go"]}
{"id": "C137", "title": "The number in an SQL literal", "statement": "SQLValToInt returns the number that the literal is, with or without sign, if it fits in 64 bits, and the default for every other literal and for none.", "quantifier": "every byte string and every default", "why_tests_cant": "Infinitely many texts; the function has no tests.", "anchors": ["util/string.go"]}
{"id": "C138", "title": "Members that are not described make no difference", "statement": "Two schema files that have the same described members, with the names of members in upper or lower case, are read alike, whatever other members they have and where: as the same schema, with the same error or with the same crash. All commands that read schema files do the same with both.", "quantifier": "every two JSON texts with the same described members, values of any form, every command and option", "why_tests_cant": "The other members can be anything, anywhere; a reader that is strict or that mixes up similar names passes the tests.", "anchors": ["format/octopus/table.go", "format/octopus/column.go", "format/octopus/io.go"]}
{"id": "C139", "title": "The last of two members of one name counts", "statement": "When an object of a schema file has two members of one name, in upper or lower case, the file is read as if the first were not there.", "quantifier": "every document, every object and member of schemas, tables and columns, wherever the two members are", "why_tests_cant": "Nobody writes such a file for a test, but files that were merged or edited have them, and encoding/json keeps parts of the first value.", "anchors": ["format/octopus/table.go", "format/octopus/column.go", "format/octopus/io.go"]}
{"id": "C140", "title": "Adding a column only adds to generated sources", "statement": "If columns are added to tables of a schema, every line of the Go structs and of the Protocol Buffers messages generated before is in the file generated afterwards, in the same order, and the rest are added lines.", "quantifier": "every pair of schemas that differ by added columns, all options, every order of map iteration in either run", "why_tests_cant": "Which lines change when a column is added depends on where it is added, on unique columns, embedded models and references; no finite set of schemas covers that.", "anchors": ["format/gorm/generator.go", "format/gorm/gorm.go", "format/gorm/gorm_model.go", "format/protobuf/generator.go"]}
{"id": "C141", "title": "Adding a column only adds to Kotlin files", "statement": "If columns are added to tables of a schema, the Kotlin generator writes the same files in the same order, and every line of every file written before is in the file written afterwards, in the same order; the rest are added lines.", "quantifier": "every pair of schemas that differ by added columns, all options, all name functions", "why_tests_cant": "Which lines change when a column is added depends on its place, on the key, on unique columns and on what it imports; no finite set of schemas covers that.", "anchors": ["format/jpa/kotlin-gen.go", "format/jpa/kotlin.go"]}
{"id": "C142", "title": "Adding a column only adds to SQLAlchemy files", "statement": "If columns are added to tables of a schema, the SQLAlchemy generator writes the same files in the same order, and every line of every file written before is in the file written afterwards, in the same order; the rest are added lines.", "quantifier": "every pair of schemas that differ by added columns, all options, all name functions, one file or one file per table", "why_tests_cant": "Which lines change when a column is added depends on its type, on unique columns and on the columns of all other tables; no finite set of schemas covers that.", "anchors": ["format/sqlalchemy/generator.go", "format/sqlalchemy/sqlalchemy.go"]}
{"id": "C143", "title": "Messages about schemas tell what is wrong", "statement": "If a schema cannot be saved because of a column, the message of the error names the first table, in the order in which tables are saved, and its first column that are wrong, and what it says about the column is true; if all columns can be saved there is no message.", "quantifier": "every schema, every order sort.Sort may leave equal tables in", "why_tests_cant": "The message depends on the first of any number of wrong columns and on the normalized type, after repairs of others; tests look at single columns.", "anchors": ["format/octopus/errors.go", "format/octopus/column.go", "format/octopus/table.go"]}
{"id": "C144", "title": "Adding a column only adds to change logs", "statement": "If columns are added to tables of a schema, the Liquibase change log of the schema has every change set it had before, with the same id; the only difference is that tables are created with more columns, the others being declared as before.", "quantifier": "every pair of schemas that differ by added columns, all options", "why_tests_cant": "How a column is declared depends on all other columns of the table, and ids depend on all earlier tables; no finite set of schemas covers that.", "anchors": ["format/liquibase/generator.go"]}
{"id": "C145", "title": "Adding a column only adds rows to workbooks", "statement": "If columns are added to tables of a schema, the exported workbook has the same sheets in the same order, and these only get additional rows; a workbook that cannot be written for the one schema cannot be written for the other.", "quantifier": "every pair of schemas that differ by added columns, every rule for sheet names, both options", "why_tests_cant": "Rows of a sheet depend on the group, the position and the number of all tables; no finite set of schemas covers that.", "anchors": ["format/xlsx/exporter.go"]}
{"id": "C146", "title": "A comparison reports added columns and nothing else", "statement": "If two schemas differ only by columns that were added to tables, none of them part of a key or unique, the Liquibase diff and the other diffs report exactly these columns: one change per table that got columns, at the right places, and nothing else.", "quantifier": "every pair of schemas that differ by added columns, all options, every order of map iteration", "why_tests_cant": "The comparison looks at all pairs of tables and columns and at renamed ones; tests compare single tables with one change each.", "anchors": ["format/diff/diff.go", "format/liquibase/diff.go", "format/liquibase/generator.go"]}
{"id": "C147", "title": "A comparison drops removed columns and nothing else", "statement": "If two schemas differ only by columns that were removed from tables, none of them part of a key or unique, the Liquibase diff, the report and the Flyway script drop exactly these columns, one change each, and do nothing else.", "quantifier": "every pair of schemas that differ by removed columns, all options, every order of map iteration", "why_tests_cant": "The comparison looks at all pairs of tables and columns and at renamed ones; tests compare single tables with one change each.", "anchors": ["format/diff/diff.go", "format/diff/mysql.go", "format/diff/flyway.go", "format/liquibase/diff.go"]}
{"id": "C148", "title": "Empty lists in files make no difference for comparisons", "statement": "Whether a file has an empty list of values or columns or leaves it out makes no difference for a comparison.", "quantifier": "every pair of schemas and every way their empty slices can be nil or not, all options, every order of map iteration", "why_tests_cant": "The slices are compared by a package that tells nil from empty; a test has both schemas from the same source, where they never differ.", "anchors": ["format/diff/diff.go", "format/liquibase/diff.go", "format/octopus/column.go", "format/octopus/table.go"]}
{"id": "C149", "title": "A comparison renames renamed tables and nothing else", "statement": "If tables have got other names and nothing else has changed, the Liquibase diff and the report rename each of these tables to its new name, replace the unique constraints named after it, and do nothing else.", "quantifier": "every pair of schemas that differ by names of tables and their order, all options, every order of map iteration", "why_tests_cant": "Which table became which is guessed from the columns, in an order that depends on all the names; tests rename one table.", "anchors": ["format/diff/diff.go", "format/liquibase/diff.go"]}
{"id": "C150", "title": "A comparison renames renamed columns and nothing else", "statement": "If columns have got other names and nothing else has changed, the Liquibase diff and the report rename each of these columns to its new name, make the keys and unique constraints they belong to anew, and do nothing else.", "quantifier": "every pair of schemas that differ by names of columns and their order, all options, every order of map iteration", "why_tests_cant": "Which column became which is guessed from the attributes, in an order that depends on all the names; tests rename one column.", "anchors": ["format/diff/diff.go", "format/liquibase/diff.go", "format/octopus/column.go"]}
