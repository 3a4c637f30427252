# Formal model of octopus-db-tool

Prover: Rocq/Coq 8.16.1, standard library only. Sources are in `rocq/theories`.
`/repo` is read as text; nothing in it is built, run or changed.

## Layout

| Directory | Content |
| --- | --- |
| `theories/Model/*.v` | the code, function by function; every definition cites file and lines; no proofs |
| `theories/Spec/*.v`  | small specifications: sets, sortedness, a database with change operations, readers for the generated languages, descriptions of documents. They use the model's data types (schema, table, column, parsed statement, change), not its functions |
| `theories/Proofs/*.v` | lemmas, witnesses of refutations, concrete cases |
| `theories/Props/*.v` | the property theorems only: statement, `exact lemma`, `Print Assumptions`, and a concrete case (`Example`) |
| `theories/Tests/*.v` | the repository's own tests and documented examples, run on the model (tests of the model, not proofs) |
| `seeded/LOG.jsonl` | wrong programs tried against the theorems |

`properties.jsonl` states the properties, `MANIFEST.json` lists the theorems of each with what is proved, refuted or missing.

## How Go is modelled

* Go strings are Coq `string`s, i.e. byte sequences. `strings.ToLower`, `strings.TrimSpace`, `\s` and `\w` act on ASCII
  only; bytes >= 128 are left alone. (Go also folds non-ASCII letters and trims Unicode spaces.)
* String order is byte order, as in Go.
* `uint16` fields are `N`; conversions to `uint16` reduce mod 65536. Theorems that need it assume `< 65536`.
* `int` is `nat` or unbounded `Z` for counters that stay small (ids, lengths); in the protobuf generator, where tags come
  from options, it is `Z` with 64-bit wrap-around.
* A slice is a list. nil and empty slices are identified unless a definition says otherwise. Comparisons tell them apart in
  `Model/NilValues.v` only; C148 says when this matters. MultiMap.RemoveValue, where
  the backing array matters, has array and slice header explicit.
* Pointers to tables and columns are positions in the owning list; two entries never share a pointer
  (true of anything produced by the JSON, SQL, Excel and StarUML readers). Null entries of lists are modelled where files
  are read (C41, C86).
* A Go map is an association list; iterating it takes an extra argument, a function that returns the entries in
  some order. Theorems quantify over every such function that returns a permutation.
* `sort.Sort` is not stable: Normalize is given any sorting function that returns a sorted permutation.
* panics, errors and `log.Fatal` are explicit results.
* Global state (the registered GORM models) is an argument and part of the result.
* Packages outside `/repo` are function arguments, gathered in the record `world` of `Model/Cli.v`, except for those listed
  under "Trusted base" below, which are transcribed.

## Plan per property

| Id | What is modelled and how it is proved |
| --- | --- |
| C01 | set.go as operations on a duplicate-free key list; invariant over operation histories against the predicate "last operation on k was an add"; Slice against the strictly sorted list of members for every iteration order |
| C02 | multimap.go with the backing array and slice header explicit for RemoveValue; refinement to a finite map of lists; RemoveValue as wished for at most one occurrence, refuted for duplicates; what it does with them exactly |
| C03 | memoization.go with a stateful wrapped function (state monad); induction over the call history |
| C04 | ParseType's regular expression as a hand-written leftmost matcher; round trip for letter-only names; refuted for names ending in a digit |
| C05 | NormalizeType; equational proofs by case analysis on the finite table plus lower-case lemmas |
| C06 | Normalize with an arbitrary sorting function; specification: valid column predicate, sorted permutation |
| C07 | LoadSchema after JSON parsing; refuted; true for schemas whose columns can be made valid |
| C08 | default/on-update setters and getters; refuted for literals starting with `fn::`, otherwise proved |
| C09 | JSON trees with omitempty; encode/decode of each struct; round trip by induction |
| C10, C11, C12 | lookups, groups, filter; specification by membership / "join of the parts is the option string" |
| C13, C14 | mappers with panic result; exact condition for panic; refuted totality; last binding wins |
| C15 | extension extraction; characterised by the last dot after the last slash |
| C16, C17, C18, C19, C20, C21 | diff.go and changeset.go as a state machine over (major, minor); self-diff empty; ids via strictly increasing order; classification as a partition; filter and added columns refuted, with the true part proved |
| C22, C23, C50 | mysql.go of the diff package as text; direction refuted; exact set of change kinds that yield SQL |
| C24 | markdown.go lines; grouping proved against filter-by-table |
| C25, C26, C27, C28 | Liquibase change sets as data; an abstract database with an `apply` function for each change; refinement: apply(diff) takes db(from) to db(to) |
| C29, C30, C31 | exporter text and definitions list; type round trip through the AST-level field type; injectivity refuted by missing quoting |
| C32 | importer over an AST of the statement kinds used |
| C33, C34, C35, C51, C52 | sheets as lists of rows of cells; write then read |
| C36 | ojson structs to octopus structs |
| C37, C38 | dbml lines as data; each reference once |
| C39, C40 | protobuf message construction with arbitrary name conversion functions |
| C41 | StarUML element trees with explicit nil |
| C42, C43 | plantuml and quickdbd lines |
| C44, C45, C49 | embedded model extraction with arbitrary iteration order |
| C46 | import sets per file |
| C47 | class and repository construction with panic result |
| C48 | class fields |
| C53 | as C21, for table comments, keys and unique constraints |
| C54, C56 | exporter text read by a reader for MySQL's CREATE TABLE (Spec/MysqlGrammar) into the importer's parse tree; round trip under exact conditions |
| C55 | importer over parse trees, refuted |
| C57, C58, C22, C23, C50 | Flyway SQL read by a reader for ALTER/CREATE/DROP/RENAME (Spec/FlywaySpec) |
| C59 | defaults of the DBML text |
| C60, C61, C62 | proto3 text read back by an independent reader |
| C63, C89 | StarUML projects, from the JSON text to the schema |
| C64, C65, C66 | Go text read back; imports against the names used; state between generations |
| C67 - C70 | Python text read back |
| C71 - C76 | Kotlin text read back |
| C77, C84, C86, C87 | encoding/json as text: printer, parser, struct decoding; documents described as trees with spacing and escapes free |
| C78, C79, C80, C81 | whole commands: files written and way of ending |
| C82 | option tables against the documented ones; effect or proof that it has none |
| C83 | group option against deleting the other tables |
| C85 | table of documented types against the exporter |
| C88 | octopus v1 documents, from the JSON text to the schema |
| C90 | two descriptions of one schema, tables permuted: same outcome of every command |
| C91, C92 | loading after saving after loading; a schema compared with itself, as whole commands |
| C93 | a command run in two worlds that differ only in map order and in how equal elements are sorted |
| C94 | Excel workbooks of the documented form, from the cells to the file that is loaded |
| C95, C96 | names read back from the generated files: members of a type, types of a file |
| C97, C98 | two runs, before and after tables are added: subsequences of lines, files, rows, change sets |
| C99, C100 | a MySQL server as a state machine: script text → statements → database, related to the schema |
| C101–C104 | whole commands: files → options → files, composed with the server, the database and the readers of the other properties |
| C105 | JSON texts: the grammar of RFC 8259 against the transcribed reader, both directions |
| C106 | wiring of options: whole runs of generators against readers of their files |
| C107 | sets of values: column types against target types, then the files read back |
| C108 | induction over the versions: every script maps databases of one file to databases of the next |
| C109 | the columns of the first import are fixed points of export and import (C56); a save repairs both files in the same way |
| C110 | inversion of the importer: whatever it returns fits the conditions under which the exporter is read back (C33), with on-update values replaced |
| C111 | the two database abstractions (C27, C99) related column by column and key by key |
| C112 | the models read as an ORM reads them, and compared with the tables of `ServerSpec` that the DDL makes |
| C113 | every crash of `run` has a listed cause; the import of DDL crashes exactly for indices on expressions |
| C114 | each change in one direction with its opposite in the other, the pairing of renamed items counted by ranks |
| C115 | the common control flow with two kinds of change sets at once, related part by part |
| C116 | C25 with the state it leaves strengthened to the state it starts from, by induction over the versions; C115 for the conditions on the log |
| C117 | Frame lemma for the shared skeleton of both comparisons (a scanned pair without changes keeps id and sets), with the positions that seed the iteration orders renumbered; induction over the tables left out |
| C118 | Values followed statement by statement from their place in the old schema; simultaneous reading of a list of renamings whose old and new names are apart; each table only by its own statements |
| C119 | Induction over the versions with C118 for each step |
| C120 | Induction over the JSON tree; the bytes of ASCII by cases, longer characters as a whole |
| C121 | Both comparisons share a skeleton: when each of its parts is empty; then the change sets of tables and of columns |
| C122 | C103 and C104 say what comes back; it agrees with what was exported (C121) |
| C123 | The declarations of the structs as data; a lemma for any struct, used for each of them; induction over the document for StarUML |
| C124, C125 | Parsing transcribed from urfave/cli and flag; inversion and completeness against an inductive definition of spellings |
| C126 | Erasing what is not listed, generator by generator; one pair of schemas for each listed attribute |
| C127 | The same for comparisons: the skeleton shared by both is invariant under erasing, given what it is built from is |
| C128 | Erasing the descriptions commutes with everything but the search for renamed tables; without new tables that search finds nothing |
| C129 | Fields and relations of a longer list of columns extend those of the shorter one; lifted to the texts with the reader of C61 |
| C130 | Without old tables the skeleton of the comparison only creates tables, in the order of the schema |
| C131 | `sub` of C97 on the columns instead of the tables; for PlantUML the lines of a table are those of the key, the separator and the rest |
| C132 | Without new tables the skeleton of the comparison only drops tables; the report follows from C24 |
| C133 | Encoder for v1 structs; each member is one part of the object, so the text is a document of `V1Spec`; read with C105's reader |
| C134 | Lookups against first/last in a list; the import keeps names and flags (C36) |
| C135 | What each reader (C37, C42, C43) sees, reduced to common terms and compared |
| C136 | Reader for the blocks of CommonMark that the writer can make, one block per call |
| C137 | Relation between texts and numbers, compared with strconv.Atoi |
| C138 | Documents reduced to the described members; decoding commutes with the reduction, level by level |
| C139 | Decoder with memory (slices with what is hidden behind them, reused pointers); witness; texts, numbers and booleans by a state that forgets one field; equal to the simple decoder without repeats |
| C140 | Relation between structs (messages) of the two schemas, lines of both texts compared as subsequences; witnesses |
| C141 | The same for the classes of the two schemas, file by file; sorted imports as subsequences; witnesses |
| C142 | The same for Python classes, imports aside, with one file and one file per table; witnesses |
| C143 | Texts of errors.go (`Messages.v`) read back by a small reader; induction over tables and columns; witnesses |
| C144 | Change sets of the two schemas related one by one, ids included; witnesses |
| C145 | Both exports run side by side, sheet by sheet; case analysis on each AddSheet |
| C146 | Scanning columns and tables computed for added columns only; nothing is renamed, dropped or created |
| C147 | As C146 in the other direction, with the fold over the removed names computed |
| C148 | `Model/NilValues.v` repeats the comparison with nil slices told from empty ones. Theorems say when it is the same as that of `Model/DiffCore.v` |
| C149 | The search for renamed tables is complete (maximality) and pairs only tables with equal columns, so it is the renaming |
| C150 | As C149 for the columns of each table; the sets of key and unique columns differ exactly if one of theirs is renamed |

No property is considered inexpressible. Properties that turn out to be false of the code are kept as stated; they get a
`..._refuted` theorem with a concrete witness and, where useful, a `..._partial` theorem with the strongest true form found.

## Trusted base

### The prover

* Coq 8.16.1's kernel (with its virtual machine, which `vm_compute` uses), the parser and printer of Coq, and the OCaml
  compiler and runtime underneath.
* Axioms: `Print Assumptions` reports "Closed under the global context" for every theorem in `theories/Props`: none depends
  on any axiom, neither from the standard library nor own. (A scan of the loaded libraries also lists the
  `Coq.ssr.ssrunder` axioms of the `Under_rel` interface, loaded with the standard library; no theorem uses them.)

### Code that is modelled

All packages of `/repo` are modelled, function by function, except for the following.

* `main.go`: the assembly of the urfave/cli application. The command words, the options with aliases, environment
  variables, defaults and "required" marks, and the actions are modelled. In all theorems but those of C124 and C125 a
  command is given the values of its options; how they come from a command line is in `Args.v`.
* File operations: a command reads from a function from file names to contents and results in a list of (name, text) pairs.
  No operation fails; directories exist; permissions, symbolic links and concurrent changes do not exist. `util.Mkdir` and
  log output are left out.
* `format/xlsx`: fonts, borders, colours, column widths, panes.
* `format/liquibase`: the YAML text (the list of change sets handed to `yaml.Marshal` is modelled) and the constant property
  `objectQuotingStrategy`.
* `ToSchema`, `ToFile` and `FromFile` of `format/ojson`, which nothing calls. (Other functions nothing calls are modelled:
  `Model/OjsonApi.v`, `Model/MarkdownWriter.v`.)
* Constructors, `Error()` texts and one-line accessors without content of their own.

The translation was made by reading; nothing checks it mechanically. Two things were done to catch mistakes: the
tests of the repository and the worked examples of its documentation run on the model with the expected results
(`theories/Tests`), and deliberately wrong models were tried against the theorems (`seeded/LOG.jsonl`).

### Packages outside the repository

| Package | Treatment |
| --- | --- |
| `encoding/json` | transcribed (`Json.v`, `JsonText.v`, `OjsonText.v`, `StarumlText.v`), as of Go 1.17: escapes, UTF-8 repair, number syntax, the limit of 10000 levels, case-insensitive member names (ASCII only), type errors. Simplified: a list or a reference given twice replaces the earlier value completely, where Go merges them (`JsonMerge.v` models the merging for v2 schema files; C139 proves that there is no difference when nothing of the kind is given twice); a null index in a schema file, and a null column beside an invalid one, give "unknown" (`NilColumns.v` says on decoded tables which of the two decides, C86) |
| `text/template` | the output of each template is transcribed by hand as string concatenation |
| `regexp` | each expression is transcribed by hand as a matcher |
| `strings`, `strconv`, `fmt` | the few functions used, in `GoString.v`; ASCII only; `strconv.ParseFloat` is an argument |
| `sort.Sort` | any function that returns a sorted permutation |
| `iancoleman/strcase`, `gertd/go-pluralize` | any functions; theorems about names state what they need of them. `Strcase.v`, what the library does as far as known, is used in `Tests` and for C95, C96 (`_columns_refuted`, `C96_refuted`, `_snake_partial`) |
| `path.Join`, `filepath.Join` | any function; where a theorem speaks of directories it says what it assumes. `GoPath.v` is used in examples and witnesses |
| `pingcap/parser` | any function from texts to statements. The parse trees have the node kinds the importer looks at. For the theorems about reading DDL back, `Spec/MysqlGrammar.v` takes its place, written from MySQL's grammar |
| `tealeg/xlsx` | a workbook is a list of named sheets of rows of texts; saving and opening returns the same cells, possibly padded with empty ones (`reads_as`), and AddSheet refuses a name already used or not allowed (`name_ok`, any predicate) |
| `google/go-cmp` | equality of all fields; nil and empty slices, which it tells apart, are the same except in `NilValues.v` (C148) |
| `yaml.v2` | any function |
| `urfave/cli`, `flag` | transcribed (`Args.v`) as of v2.3.0 and Go 1.17, from memory of their sources, which are not on the machine this was written on: flags, aliases, environment variables, required flags, help and version. Not modelled: completion for shells, the texts shown, the version flag between the two words of a command |

### Specifications

A theorem says what its statement says; these definitions are part of it and should be read with it.

* `Spec/Database.v`: what Liquibase's changes do to a database (tables, columns, keys, unique constraints, comments). It is
  an abstraction made for C25 - C28, not a model of any server.
* Readers for fragments of MySQL (`MysqlGrammar`, `FlywaySpec`), DBML, PlantUML, QuickDBD, GraphQL, proto3, Go, Python and
  Kotlin (`*Spec.v`), written from the public grammars. A text outside the fragment is "not read", so a theorem that
  a text is read as X is never weaker than the grammar, but a refutation by "not read" rests on the fragment being
  large enough; each such refutation has its reason in a comment.
* `FormatSpec`, `V1Spec`, `StarDocSpec`: what a JSON document describes, from `docs/octopus-format.md`, the v1 struct tags
  and the StarUML format.
* `XlsxDocSpec`: which schema a workbook describes, from `docs/xlsx.md`.
* `NamesSpec`: which names of a generated file have to differ, and when names stay apart.
* `LocalSpec`: a schema with tables added; a text with lines added.
* `ServerSpec`: a MySQL server that runs scripts (columns, primary key, other keys; the errors for those), the database a schema
  describes, the tables the server accepts, the tables whose changes a Flyway script can express.
* `JsonGrammar`: JSON texts and their values, from RFC 8259 and RFC 3629.
* `ValuesSpec`: the values of columns by documented type, the values that types of Go, Kotlin, GraphQL, Protocol Buffers, SQLAlchemy,
  MySQL and change logs hold, and where there is room. Trusted as a reading of the documentation of these languages.
* `ValuesFilesSpec`: the same for the declarations of generated files.
* `ReleaseSpec`: databases that are the same, scripts run one after the other, files that follow one another.
* `TripSpec`: sizes as they are in files, for schemas that go through MySQL DDL twice.
* `TripEndSpec`: any number of exports to MySQL DDL and imports.
* `BookSpec`: what a second trip through a workbook leaves of a schema.
* `CreatedSpec`: when the databases of `ServerSpec` and `Database` are the same.
* `MappedSpec`, `MappedPySpec`, `MappedKtSpec`, `MappedGoSpec`: what SQLAlchemy, Hibernate and GORM read from the generated classes, and
  when that fits a table of `ServerSpec`.
* `CrashSpec`: the causes of crashes. `ReverseSpec`: the opposite of a change. `AgreeSpec`: the statements
  of a change log about a change. `LogReleaseSpec`: sequences of versions and their change logs. `UnchangedSpec`: unchanged tables left out of two
  schemas. `TraceSpec`: where the values of a column are after statements of each kind.
  `StepSpec`: the same after the change logs of a sequence of versions. `SafeSpec`: characters without a meaning elsewhere. `DriftSpec`: when schemas agree. `ShapeSpec`: the
  forms of documents. `ArgsSpec`: command lines. `MattersSpec`: attributes and who
  looks at them.
* `WiringSpec`: what the values of the options mean.
* `WidenSpec`, `WidenSources`, `WidenKotlin`, `WidenPython`, `WidenLog`, `WidenBook`, `WidenDiff`, `NarrowDiff`: a schema with columns added to its tables, and which additions are harmless.
* `RenameSpec`, `RenameColumns`: schemas that differ by names of tables or columns, and the changes for renamed ones.
* `NilListSpec`: tables whose empty slices are nil in the same places.
* `ExtrasSpec`, `MergeSpec`: schema files with undescribed and with repeated members. `WireSpec`: messages of one version read by
  another. `WordsSpec`: descriptions. `NothingSpec`, `RemovedSpec`: comparisons with an empty schema. `NilSpec`: lists with null columns.
  `MultimapSpec`: taking values out of a list. `MarkdownCalls`, `MarkdownReading`: documents and what a reader of CommonMark sees.
  `V1ApiSpec`: octopus v1 schemas. `MessageSpec`: what error messages say.
* The remaining files `Spec/*Spec.v` are named after the package they speak about; each says in its first line what it states.
* `EndSpec`: the options a command needs, comma separated lists, a schema with its tables in order, what the SQL parser and the
  workbook library must satisfy.
* `OptionsSpec`: the option tables of `docs/*.md`, transcribed.

## What was found

The properties that are false of the code, each with a `..._refuted` theorem (numbers as in `properties.jsonl`):

* Utilities: `RemoveValue` with duplicate values, which leaves some and copies the last value (C02); types ending in a digit do not parse back (C04).
* Schema files: LoadSchema ignores the error of Normalize (C07), so that some loaded schemas cannot be saved (C91); a literal starting with `fn::` becomes a function (C08);
  null tables and columns crash (C86); `ref` as a list, as documented, and sizes above 65535 are refused (C84).
* Options: prefix and annotation options with a part without colon panic (C13, C14); nine documented options are ignored
  (C82); `useUTC` of SQLAlchemy needs a value; the group option is ignored by DBML (C38) and not applied to the old schema
  in a diff (C19), so that comparing a file with itself drops tables (C92), nor to the targets of references in GORM and protobuf (C62, C83).
* Diff: added columns are never reported (C20); Flyway prints nothing for 8 of 15 kinds of change (C23), turns auto-increment on when it should go off (C22), prints
  invalid `MODIFY ADD` (C57), drops primary keys that do not exist (C50) and column attributes on a NOT NULL change (C58).
* Liquibase: dropped and created constraints that do not match (C25, C26), new first columns placed last (C28). Other than the DDL, change
  logs have no indices and no on-update values, `fn::CURRENT_TIMESTAMP` as a text, false for the default value 1, and two unique keys
  for a single unique column (C111).
* MySQL: types that change on re-import (C30), unquoted texts (C31, C56), nullable auto-increment (C54), column-level UNIQUE
  ignored (C55).
* Excel: enum values never read back, default written as on-update value (C33, C35), documented reference symbols and `autoinc` not
  understood (C51, C52), so that the documented example loads as another schema (C94). A cell `bigint(20)` is imported as `int64(20)`,
  which the importer refuses in the next workbook (C110).
* Octopus v1: default values and class names lost (C36). StarUML: dangling references and nulls crash (C41), numeric lengths ignored
  (C63).
* Generators: see C37 - C49 and C59 - C76 in `MANIFEST.json`. DBML, PlantUML and QuickDBD escape nothing, so that different schemas
  have the same text (C37, C42, C43). Two references to one table give a protobuf message and a Go struct with two members of one
  name; names that differ only in spelling meet after conversion (C95, C96).
* Models and DDL of one schema do not fit (C112): SQLAlchemy classes with two unique columns make each of them unique on its own, since the
  constraint stands outside `__table_args__`; auto-increment NOT NULL columns outside the key may be null for SQLAlchemy and GORM.
* The import of DDL crashes on an index on an expression, since the parser then gives a key part without a column (C113).
* Of two renamed tables or columns that are alike, the comparison in the other direction may pair others (C114).
* The Liquibase diff and the other diff differ in added columns, auto-increment turned off and constraints dropped in vain (C115).
* A table with exactly one unique column cannot be migrated by change logs once the column changes (C116).
* With a group filter, an unchanged table of another group is reported as dropped (C117).
* The Flyway script of a renamed column leaves its values under the old name; values of a removed column go to any new
  column with the same attributes (C118).
* Upgrading step by step and in one go leave different values, in either direction, in databases of the same structure (C119).
* No number of exports to MySQL DDL and imports is enough for a schema to settle: descriptions are written without
  escapes and read with them, so every trip halves a run of backslashes (C109_settles_refuted).
* `diff flyway` and `diff md` write that nothing changed if columns were added that are in no key; `diff liquibase` does so if auto-increment
  was turned off. Nothing else that the comparisons are about is overlooked (C121).
* With `--comments`, a schema that came back from its own MySQL DDL shows the descriptions of all tables as changed (C122), since the
  DDL has none.
* Options behind an argument that is no option are ignored without a message: `oct diff md … --comments true --groups g1`
  compares all groups, as a switch does not take the next argument for its value (C125). `--useUTC` of SQLAlchemy, which is
  documented as a flag to set, takes the option behind it for its value.
* What is lost by the exporters and generators (C126): MySQL scripts have neither references nor descriptions of tables; GORM,
  Kotlin and SQLAlchemy classes have no default values; SQLAlchemy classes have no references and no indices; Protobuf messages do
  not tell "1:n" from "n:1"; QuickDBD has no sizes; GraphQL types have no sizes and no references; the values of
  enums are only in MySQL scripts, not in workbooks.
* No comparison looks at the indices of a table that is not new: an index added, changed or removed is no change (C127).
* Even without the option comments, a renamed table one of whose columns is described anew is dropped and created, losing its
  rows, instead of renamed; columns are recognised as renamed regardless of descriptions (C128).
* A column added to a table with a reference takes over the protobuf number of the reference, so old and new programs misread
  each other's messages; the option that would prevent it is ignored (C129).
* Adding a column can change lines of other columns (C131): the type of the primary key in GraphQL, the place of the separator in PlantUML, a comma in MySQL.
* Columns of a v1 file that differ in their default value only are the same once imported, and columns that differ
  in their description only are different even when descriptions do not count (C134).
* A null column behind a column that is not valid does not crash the reader; it is returned as a nil pointer, without an
  error (C86).
* The Markdown writer does not protect code that has a fence in it (C136).
* When a schema file gives `tables`, `columns` or the like twice, the second list is decoded into the elements of the first: descriptions,
  keys and references that only the first list gives stay with the element at the same place of the second (C139).
* A column added at the end of a table changes the Protocol Buffers numbers of the relations of that table, because these are numbered
  after the columns and the options that would fix the start are not passed on (C140, C82).
* The error about the members of a set gives the limit as less than 64, the code accepts 64 (C143).
* If columns are all that was added, the Markdown report and the Flyway script of the comparison are
  empty, and so the migration does not add them (C146; the cause is that of C20).
* If columns are all that was removed, the report says so but the Flyway script is blank (C147).
* A renamed table is dropped and created anew if only one of the two files has `"values": []` for one of its columns (C148).
* Of two renamed tables with the same columns each can be given the name meant for the other, and so its data; a table that
  gets the old name of another loses its data (C149).
* Of two renamed columns that differ in their values or references only each can be given the name meant for the other; a
  column that gets the old name of another is changed into that, and a column is dropped (C150).
* A table added before others shifts the ids of the Liquibase change sets behind it, so a database that ran the old change log would run
  them again; a table added in front takes the import of Column from the SQLAlchemy file of the next one (C98).
* The DDL of an auto-increment column without a key is refused by the server; of two tables of the same name the second is skipped
  silently (C99). Flyway scripts stop at a table's first primary key (DROP PRIMARY KEY comes first) and when the key of an
  auto-increment column changes; they lose the comment and default of a column that becomes NOT NULL, and leave out indices, types,
  added and dropped columns and the names of unique keys of renamed tables (C100).
* Types too small for their column (C107): int64 is a 32-bit Int in GraphQL and decimals are floating-point numbers in GraphQL and
  Protocol Buffers; GORM has `byte` for bits of any length and no null for enums; SQLAlchemy has the narrow Float for doubles;
  BINARY(16) becomes BINARY in the DDL, that is one byte; change logs have BLOB (64 KB on MySQL) for all blobs.
* Order: migration scripts with two renamed tables or columns, the Markdown report with two renamed columns of one table and GORM
  structs with two fitting models come out in random order (C93, C45).
* Commands: Kotlin files left behind after a crash (C78), names with slashes leave the output directory (C79), `init` differs from
  its documentation (C80).

Noted while modelling, without a property of their own: renaming a table or column together with its description does not report the
description; custom JPA annotations are
concatenated without a space; the PlantUML documentation shows
columns without the mark `*` that the generator prints for required ones; the GraphQL file is `*.graphqls`, the documentation
says `*.graphql`; the StarUML documentation shows `oct import ojson --help`.
