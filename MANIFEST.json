{"claims": [
  {"property": "C01", "status": "proved", "theorems": ["C01_stringset_is_a_set"], "note": "StringSet refines the mathematical set built by its operation history; Slice/Join order-free."},
  {"property": "C02", "status": "partial", "theorems": ["C02_multimap_history", "C02_remove_value_partial", "C02_remove_value_refuted", "C02_remove_value_exact", "C02_remove_value_copies_refuted"], "note": "REFUTED as stated: RemoveValue with duplicate values removes the wrong elements (C02_remove_value_refuted) and can copy others (C02_remove_value_copies_refuted). History law for the other operations is proved in full; RemoveValue proved when the value occurs at most once, and C02_remove_value_exact says exactly what is left in every case."},
  {"property": "C03", "status": "proved", "theorems": ["C03_memo_once_per_key"], "note": "Proved for every function and call sequence."},
  {"property": "C04", "status": "partial", "theorems": ["C04_type_text_roundtrip_partial", "C04_type_text_spacing", "C04_type_text_refuted"], "note": "REFUTED as stated: int64(20) does not parse back, and a scale without a size is lost. C04_type_text_roundtrip_partial is the exact condition (iff)."},
  {"property": "C05", "status": "proved", "theorems": ["C05_normalize_type"], "note": "Proved for all type texts."},
  {"property": "C06", "status": "proved", "theorems": ["C06_normalize_success", "C06_normalize_error", "C06_normalize_twice"], "note": "Proved for every sort function that sorts (sort.Sort is unstable)."},
  {"property": "C07", "status": "partial", "theorems": ["C07_load_schema_valid_partial", "C07_load_schema_refuted"], "note": "REFUTED as stated: LoadSchema drops the Normalize error, so a file with type bool loads. Proved when every column can be repaired."},
  {"property": "C08", "status": "partial", "theorems": ["C08_fn_value_partial", "C08_fn_value_refuted"], "note": "REFUTED as stated: a literal starting with fn:: reads back as a function. Proved otherwise."},
  {"property": "C09", "status": "proved", "theorems": ["C09_json_roundtrip"], "note": "Proved on JSON trees; C77 adds the text syntax of encoding/json."},
  {"property": "C10", "status": "proved", "theorems": ["C10_lookups"], "note": "Proved."},
  {"property": "C11", "status": "proved", "theorems": ["C11_groups"], "note": "Proved."},
  {"property": "C12", "status": "proved", "theorems": ["C12_group_filter"], "note": "Proved for any option text."},
  {"property": "C13", "status": "partial", "theorems": ["C13_prefix_panic_partial", "C13_prefix_plain", "C13_prefix_groups", "C13_prefix_panic_refuted"], "note": "REFUTED as stated: panic on a comma part without a colon when the text has a colon. C13_prefix_panic_partial is the exact panic condition; the mapping itself is proved."},
  {"property": "C14", "status": "partial", "theorems": ["C14_annotation_panic_partial", "C14_annotation_plain", "C14_annotation_groups", "C14_annotation_panic_refuted"], "note": "REFUTED as stated: same panic as C13; exact condition and mapping proved."},
  {"property": "C15", "status": "proved", "theorems": ["C15_file_format", "C15_load_schema_accepts"], "note": "Proved for all file names."},
  {"property": "C16", "status": "proved", "theorems": ["C16_self_diff_empty", "C16_liquibase_self_diff_empty"], "note": "Generic and Liquibase diff."},
  {"property": "C17", "status": "proved", "theorems": ["C17_ids_distinct", "C17_diff_total", "C17_liquibase_ids_distinct", "C17_liquibase_generate_ids_distinct"], "note": "Generic diff, Liquibase diff and Liquibase generator; plus a theorem that the generic diff never fails."},
  {"property": "C18", "status": "proved", "theorems": ["C18_table_classification", "C18_liquibase_classification"], "note": "Generic and Liquibase diff, also with a filter."},
  {"property": "C19", "status": "partial", "theorems": ["C19_filtered_diff_refuted", "C19_filtered_diff_partial"], "note": "REFUTED: tables of the old schema are not filtered, so a table outside the selected groups is reported as dropped even between identical schemas. Proved: every change is about a selected table of the new schema or an old table that is not in that selection."},
  {"property": "C20", "status": "partial", "theorems": ["C20_added_columns_refuted", "C20_removed_columns_partial"], "note": "REFUTED: the change set with the added columns is built but never appended, so no AddColumn is ever reported. Proved: dropped and renamed columns are reported exactly once."},
  {"property": "C21", "status": "proved", "theorems": ["C21_attribute_changes"], "note": "Proved."},
  {"property": "C22", "status": "partial", "theorems": ["C22_on_partial", "C22_off_refuted"], "note": "REFUTED for the off direction (C22_off_refuted: the statement turns auto-increment on and adds PRIMARY KEY, for every plain table and column); the on direction is proved. Plain = names, types and texts that need no quoting."},
  {"property": "C23", "status": "partial", "theorems": ["C23_silent_refuted", "C23_which_partial", "C23_layout_partial", "C23_script_partial"], "note": "REFUTED: 8 of 15 kinds of change print nothing (C23_which_partial says exactly which; C23_silent_refuted is a diff with an empty script). Proved: order and blank lines, and that the script of any diff between plain schemas is valid MySQL with exactly the listed statements."},
  {"property": "C24", "status": "proved", "theorems": ["C24_report", "C24_line_kind", "C24_line_shows"], "note": "Every map iteration order. C24_line_kind and C24_line_shows add that a line tells its kind of change and shows the names involved."},
  {"property": "C25", "status": "partial", "theorems": ["C25_new_unique_refuted", "C25_dropped_key_refuted", "C25_autoincrement_refuted", "C25_generated_refuted", "C25_migration_partial"], "note": "REFUTED as stated, four witnesses: a first unique column, a dropped key column, removed auto-increment, and a database made by the tool's own generator. C25_migration_partial proves it for all pairs of well-formed schemas that meet the listed conditions (record migratable; unchanged description for renamed tables), on the database semantics of Spec/Database.v."},
  {"property": "C26", "status": "partial", "theorems": ["C26_drop_unique_refuted", "C26_empty_change_set_refuted", "C26_constraints_partial"], "note": "REFUTED as stated, both parts. Proved when no table gains its first or loses its last unique column."},
  {"property": "C27", "status": "partial", "theorems": ["C27_comma_refuted", "C27_generate_partial"], "note": "REFUTED as stated: a comma in a unique column's name breaks the constraint. Proved for all filters, suffixes and schemas whose column names have no commas or outer spaces and whose key columns are not null."},
  {"property": "C28", "status": "partial", "theorems": ["C28_first_column_refuted", "C28_placement_partial"], "note": "REFUTED as stated: a new first column is put last. Proved whenever the first column is not new."},
  {"property": "C29", "status": "proved", "theorems": ["C29_ddl_layout"], "note": "Proved for every table and suffix."},
  {"property": "C30", "status": "partial", "theorems": ["C30_type_round_trip_partial", "C30_type_round_trip_refuted"], "note": "REFUTED as stated: binary loses its size, int8(1) and bit(1) become boolean, varbinary without a length is invalid. C30_type_round_trip_partial is the exact condition (iff) for all 31 types and all 16-bit sizes."},
  {"property": "C31", "status": "partial", "theorems": ["C31_ddl_injective_refuted", "C31_ddl_injective_partial", "C31_default_injective_partial"], "note": "REFUTED as stated: a default value can contain what looks like a comment. Proved for tables whose names and texts need no quoting; default values up to their meaning, and exactly for canonical values."},
  {"property": "C32", "status": "proved", "theorems": ["C32_import_structure"], "note": "Proved for every list of parsed statements."},
  {"property": "C33", "status": "partial", "theorems": ["C33_roundtrip_partial", "C33_roundtrip_refuted", "C33_values_never_read", "C33_common_refuted"], "note": "REFUTED as stated: six kinds of valid columns come back different, enum and set values are never read from any workbook, and groups \"\" and \"Common\" together make the export fail. C33_roundtrip_partial proves the round trip for all schemas whose texts fit the cells, for every iteration order of the sheet map, both null options, and files padded with empty cells."},
  {"property": "C34", "status": "proved", "theorems": ["C34_null_option"], "note": "Proved for every schema, including those the export refuses."},
  {"property": "C35", "status": "partial", "theorems": ["C35_attributes_partial", "C35_on_update_refuted"], "note": "REFUTED: the exporter writes the default value as on-update value. C35_attributes_partial says exactly what is read back."},
  {"property": "C36", "status": "partial", "theorems": ["C36_import_v1_partial", "C36_import_v1_panic", "C36_class_default_lost", "C36_default_refuted", "C36_then_valid"], "note": "REFUTED as stated: the default value is replaced by the description and class names are dropped (C36_default_refuted, C36_class_default_lost); auto-increment is dropped from non-integers. C36_import_v1_partial: everything else is kept. Exact panic condition (C36_import_v1_panic), and the result normalizes to a valid v2 schema if all types are v1 types."},
  {"property": "C37", "status": "partial", "theorems": ["C37_references_partial", "C37_refuted"], "note": "REFUTED as stated: nothing is escaped, two valid schemas with different references have the same text (C37_refuted). Text read back by an independent DBML reader: all tables and settings, every reference exactly once, inline exactly if the target is defined above. Restricted to names that need no quoting, descriptions without double quotes or line breaks, and legal defaults (see C59)."},
  {"property": "C38", "status": "partial", "theorems": ["C38_groups_partial", "C38_groups_refuted"], "note": "REFUTED: the group option is parsed but never consulted. Proved: all tables are always defined, so the claim holds exactly if the filter passes every table."},
  {"property": "C39", "status": "partial", "theorems": ["C39_tags_refuted", "C39_tags_partial"], "note": "REFUTED for start tags near the 64-bit limit (overflow gives negative tags). Proved for all start tags, directions and tables for which nothing overflows."},
  {"property": "C40", "status": "partial", "theorems": ["C40_no_crash_refuted", "C40_no_crash_partial"], "note": "REFUTED: a reference to a missing table dereferences nil. Proved: generation succeeds exactly if the references of the selected tables resolve."},
  {"property": "C41", "status": "partial", "theorems": ["C41_dangling_refuted", "C41_null_refuted", "C41_no_crash_partial", "C41_described"], "note": "REFUTED: a dangling reference, or a null in an element list, dereferences nil. Proved: no panic for trees without these, an error exactly without data model, and the full description of the result for every tree that is imported."},
  {"property": "C42", "status": "partial", "theorems": ["C42_diagram_partial", "C42_refuted"], "note": "REFUTED as stated: nothing is escaped, two valid schemas with different columns have the same text (C42_refuted). Text read back by an independent reader: start and end lines, one entity per table, one row per column with its marks, one separator before the first non-key column, one relation per reference in order. Restricted to names that are plain words."},
  {"property": "C43", "status": "partial", "theorems": ["C43_text_partial", "C43_refuted"], "note": "REFUTED as stated: nothing is escaped, two valid schemas with different columns have the same text (C43_refuted). Text read back exactly: title, underline of the same length, one line per column with all flags, default, reference and note. Restricted to plain names, defaults without spaces, texts without line breaks."},
  {"property": "C44", "status": "proved", "theorems": ["C44_embedding", "C44_registry"], "note": "Proved for every map of models with distinct names (which every sequence of generations yields) and every iteration order."},
  {"property": "C45", "status": "partial", "theorems": ["C45_order_refuted", "C45_overlap_refuted", "C45_one_model_partial", "C45_default_partial"], "note": "REFUTED: with two models the order of the embedded structs, and with overlapping models the choice, depends on the map order. Proved when no table has the columns of two models, in particular without the option."},
  {"property": "C46", "status": "partial", "theorems": ["C46_single_partial", "C46_column_refuted", "C46_tz_refuted", "C46_separate_partial", "C46_first_partial"], "note": "Single-file mode proved. REFUTED for one file per table: only the first file imports Column (C46_column_refuted holds for every schema), and with useUTC no file defines TZDateTime (C46_tz_refuted). C46_separate_partial: nothing else is missing. Schemas whose names are words and whose types have a counterpart; tables with at least one column in the separate mode (a later file without typed columns starts with an empty import list)."},
  {"property": "C47", "status": "partial", "theorems": ["C47_nopk_refuted", "C47_fatal_refuted", "C47_done_partial", "C47_panic_partial", "C47_idclass_partial"], "note": "REFUTED: with a repository package, a table without a primary key is an index out of range (C47_nopk_refuted), and a reference to a filtered-out table ends in log.Fatalf (C47_fatal_refuted). Proved exactly when it ends well and when it panics, and that composite keys have their id class (file read back, names being identifiers)."},
  {"property": "C48", "status": "proved", "theorems": ["C48_types"], "note": "Text read back by an independent SDL reader, for every choice of naming functions, filter and prefix option, provided the names that end up in the text are words and the types are valid octopus types."},
  {"property": "C49", "status": "partial", "theorems": ["C49_refuted"], "note": "REFUTED: '--embed gorm.Model:' registers a model without columns, which fits every table, so every struct embeds gorm.Model."},
  {"property": "C50", "status": "partial", "theorems": ["C50_drop_refuted", "C50_keys_partial"], "note": "REFUTED: DROP PRIMARY KEY is always printed. Proved: ADD PRIMARY KEY appears iff the new table has a key and lists exactly its columns."},
  {"property": "C51", "status": "partial", "theorems": ["C51_symbols_partial", "C51_no_symbol", "C51_symbols_refuted", "C51_never_found_refuted"], "note": "REFUTED: the symbol stays in the table name, so a documented reference is never found. C51_symbols_partial: relationship and column are right; C51_no_symbol: the form without symbol works."},
  {"property": "C52", "status": "partial", "theorems": ["C52_attributes_partial", "C52_autoinc_refuted"], "note": "REFUTED for the documented word autoinc. C52_attributes_partial proves default, onUpdate and class for every documented cell with any blanks, and auto-increment for the spelling autoInc."},
  {"property": "C53", "status": "proved", "theorems": ["C53_table_changes"], "note": "Proved."},
  {"property": "C54", "status": "partial", "theorems": ["C54_ddl_round_trip_partial", "C54_ddl_round_trip_refuted"], "note": "REFUTED as stated (nullable auto-increment). Proved for all schemas whose selected tables are plain and whose columns survive (records plain_table, survives)."},
  {"property": "C55", "status": "partial", "theorems": ["C55_column_unique_refuted", "C55_column_unique_ignored_partial"], "note": "REFUTED: the option has no case in the importer, so it is ignored whatever else the column says."},
  {"property": "C56", "status": "partial", "theorems": ["C56_ddl_reads_back_partial", "C56_ddl_reads_back_refuted"], "note": "REFUTED as stated: an apostrophe in a comment, a space in a name, or no columns. Proved for all schemas whose selected tables are plain (record plain_table)."},
  {"property": "C57", "status": "partial", "theorems": ["C57_add_refuted"], "note": "REFUTED for every plain table and column: MODIFY ADD is not valid. getDiff never produces AddColumn, so only direct users of ToSQL are affected."},
  {"property": "C58", "status": "partial", "theorems": ["C58_not_null_partial"], "note": "REFUTED in general; the theorem says exactly when it holds: when there is no default, ON UPDATE, AUTO_INCREMENT or comment to lose."},
  {"property": "C59", "status": "partial", "theorems": ["C59_defaults_partial", "C59_defaults_refuted"], "note": "REFUTED: function defaults (fn::...) and defaults of enum, text and date types are written unquoted, which is not legal DBML. Proved for char/varchar and for number/true/false/null defaults."},
  {"property": "C60", "status": "partial", "theorems": ["C60_direction_refuted", "C60_flags_refuted", "C60_upwards_partial"], "note": "REFUTED twice: relationTagDecr does not make the tags go down, and the command ignores both flags. Proved: upwards tags start at the start tag."},
  {"property": "C61", "status": "partial", "theorems": ["C61_file_refuted", "C61_file_partial"], "note": "REFUTED: one-to-many references are not printed as repeated. Everything else proved by reading the text back, for names that are words."},
  {"property": "C62", "status": "partial", "theorems": ["C62_contained_refuted", "C62_contained_partial"], "note": "REFUTED: with a group filter a message may use a message that is not generated. Proved when referenced tables are selected and column types have a counterpart."},
  {"property": "C63", "status": "partial", "theorems": ["C63_number_refuted", "C63_size_partial"], "note": "REFUTED: a length given as a JSON number is a float64, which ToInt ignores. Proved for lengths given as text and for absent lengths."},
  {"property": "C64", "status": "proved", "theorems": ["C64_text"], "note": "Proved by reading the text back, for names that are words."},
  {"property": "C65", "status": "partial", "theorems": ["C65_unused_refuted", "C65_enough_partial", "C65_used_partial"], "note": "REFUTED: a nullable decimal, blob, bit, enum or untyped column imports package null without using it. Proved: enough is imported; nothing unused if every nullable column has a type of package null."},
  {"property": "C66", "status": "partial", "theorems": ["C66_refuted", "C66_no_embed_partial"], "note": "REFUTED: registered models are global state and stay registered. Proved: a generation without valid embed option changes nothing."},
  {"property": "C67", "status": "proved", "theorems": ["C67_single", "C67_separate"], "note": "Read back with an independent reader of the Python fragment. Types without a counterpart are excluded, see C68."},
  {"property": "C68", "status": "partial", "theorems": ["C68_type_refuted", "C68_scale_refuted", "C68_partial"], "note": "REFUTED: a column type without a counterpart (json, enum, binary, year, bit(n)) yields Column(, ...); float/double with a scale yields Float(scale=...), which SQLAlchemy's Float does not accept. Partial: true for columns with a counterpart and no scale on float/double."},
  {"property": "C69", "status": "partial", "theorems": ["C69_refuted", "C69_partial"], "note": "REFUTED: async and await (keywords since Python 3.7) are missing from the list. Partial: true for all other names."},
  {"property": "C70", "status": "partial", "theorems": ["C70_refuted", "C70_partial"], "note": "REFUTED: lists attribute names, which differ from the column names for renamed attributes (from -> from_). Partial: true where attribute and column have the same name."},
  {"property": "C71", "status": "partial", "theorems": ["C71_partial", "C71_refuted"], "note": "REFUTED as stated: a table without a primary key gets no repository (C71_refuted); see also C72, C73 and C76. Proved for names that are Kotlin identifiers, a package name, not-null columns of types with a value, keys that are not null."},
  {"property": "C72", "status": "partial", "theorems": ["C72_value_refuted", "C72_key_refuted", "C72_keyword_refuted", "C72_partial"], "note": "REFUTED for not-null binary columns, nullable columns in composite keys and keyword names; proved otherwise."},
  {"property": "C73", "status": "partial", "theorems": ["C73_output_refuted", "C73_package_refuted", "C73_partial"], "note": "REFUTED without a package (files land in the working directory, package line without a name); proved with one."},
  {"property": "C74", "status": "partial", "theorems": ["C74_entities_partial", "C74_repository_refuted", "C74_repositories_partial"], "note": "Proved for entity files (identity and custom annotations not named like library classes). REFUTED for repositories: the type of a date, time, decimal or blob key is not imported; proved for other keys."},
  {"property": "C75", "status": "partial", "theorems": ["C75_refuted", "C75_partial"], "note": "REFUTED: the constraint lists property names; proved for columns whose name is the snake case of the property."},
  {"property": "C76", "status": "partial", "theorems": ["C76_refuted", "C76_partial"], "note": "REFUTED for a nullable id; proved otherwise."},
  {"property": "C77", "status": "partial", "theorems": ["C77_saved_file_loads_partial", "C77_any_bytes", "C77_saved", "C77_refuted"], "note": "REFUTED for texts that are not UTF-8: the bytes are replaced by U+FFFD (C77_refuted). Proved for UTF-8 texts and distinct table keys, and in general up to exactly that replacement and the order of tables with equal keys (C77_any_bytes); C77_saved says which schemas can be saved."},
  {"property": "C78", "status": "partial", "theorems": ["C78_refuted", "C78_partial", "C78_kt_partial"], "note": "REFUTED for the Kotlin generator, which crashes after writing entity files (C78_refuted); proved for all other commands, and for the Kotlin generator the only two causes are given."},
  {"property": "C79", "status": "partial", "theorems": ["C79_single", "C79_gorm", "C79_plantuml", "C79_sqlalchemy", "C79_graphql", "C79_graphql_refuted", "C79_sqlalchemy_refuted"], "note": "Proved for all commands which paths are written (Kotlin: C73). REFUTED that they stay in the output directory: a schema name or table name with slashes leads out of it (GraphQL, SQLAlchemy)."},
  {"property": "C80", "status": "partial", "theorems": ["C80_partial", "C80_text_refuted", "C80_default_refuted"], "note": "REFUTED: the text differs from docs/init.md, the documented schema lacks the relationship, and without the option the file name is empty. Proved: the file always loads as a valid schema that equals the documented one apart from relationships."},
  {"property": "C81", "status": "proved", "theorems": ["C81_imports_load"], "note": "The SQL parser and the xlsx reader are any functions."},
  {"property": "C82", "status": "partial", "theorems": ["C82_declared", "C82_distinct", "C82_refuted", "C82_ignored_refuted", "C82_effect_partial", "C82_exclusive_partial", "C82_switch_refuted", "C82_switch_partial"], "note": "REFUTED: nine options are ignored for all inputs (DBML groups, GraphQL package, Kotlin useUTC, protobuf relation tags, Liquibase diff suffix, Flyway and Markdown author, Markdown suffix), and useUTC of SQLAlchemy needs a value. All other options are shown to have an effect."},
  {"property": "C83", "status": "partial", "theorems": ["C83_groups", "C83_gorm_refuted", "C83_pb_refuted", "C83_references_partial"], "note": "REFUTED for GORM and protobuf: they refer to tables of groups that are not chosen (C83_gorm_refuted, C83_pb_refuted); proved for MySQL, JPA Kotlin, Liquibase and SQLAlchemy, and for GORM and protobuf if no chosen table refers to another group."},
  {"property": "C84", "status": "partial", "theorems": ["C84_partial", "C84_list_refuted", "C84_large_refuted"], "note": "REFUTED: ref written as a list, as the description says, is refused, and so is a size above 65535. Proved for all other documents."},
  {"property": "C85", "status": "proved", "theorems": ["C85_mysql_types"], "note": "Proved for every documented type in any case, with and without size and scale."},
  {"property": "C86", "status": "partial", "theorems": ["C86_partial", "C86_nulls_partial", "C86_refuted", "C86_order_partial", "C86_nil_returned_partial", "C86_same_reader_partial"], "note": "REFUTED: a null element of a list of tables or columns crashes (C86_refuted; C86_nulls_partial: always, in an otherwise good file whose columns are valid; a null index is returned as a nil pointer). Proved that nothing else can crash, and, for a null column beside an invalid one, that the first of them decides: the reader crashes or returns the nil pointer without an error (C86_order_partial, C86_nil_returned_partial, on decoded tables)."},
  {"property": "C87", "status": "proved", "theorems": ["C87_loaded_text"], "note": "Proved for every file: bytes that are not UTF-8 become U+FFFD."},
  {"property": "C88", "status": "partial", "theorems": ["C88_refuted", "C88_imported_partial"], "note": "REFUTED as stated: class names and default values are lost (C88_refuted, see C36). C88_imported_partial: everything else is kept."},
  {"property": "C89", "status": "proved", "theorems": ["C89_imported"], "note": "Proved from the text of the project file to the schema, for projects of the described form."},
  {"property": "C90", "status": "proved", "theorems": ["C90_layout"], "note": "Proved for every command that reads schema files (all but the four imports), every sort function and all pairs of files with the same meaning."},
  {"property": "C91", "status": "partial", "theorems": ["C91_saved_partial", "C91_resaved", "C91_refuted"], "note": "REFUTED as stated: a file with type bool loads (the Normalize error is dropped) but cannot be saved (C91_refuted). C91_saved_partial is the exact condition; C91_resaved proves the rest."},
  {"property": "C92", "status": "partial", "theorems": ["C92_partial", "C92_refuted"], "note": "REFUTED as stated: with a groups option the tables of other groups are reported as dropped (C92_refuted). Proved without groups, for all three commands."},
  {"property": "C93", "status": "partial", "theorems": ["C93_no_maps", "C93_partial", "C93_refuted"], "note": "REFUTED as stated for GORM and the three diff commands: with two renamed tables or columns, or two fitting models, the output depends on the map order (C93_refuted). Proved unconditionally for the commands that iterate over no map, and for all commands under order_free."},
  {"property": "C94", "status": "partial", "theorems": ["C94_partial", "C94_refuted"], "note": "REFUTED as stated: with the documented spelling of references and of autoinc the example of the documentation loads as another schema (C94_refuted). C94_partial: true of the spelling the importer understands, and of the documented one for tables without references and auto-increment columns."},
  {"property": "C95", "status": "partial", "theorems": ["C95_protobuf_refuted", "C95_gorm_refuted", "C95_columns_refuted", "C95_protobuf_partial", "C95_gorm_partial", "C95_graphql_partial", "C95_sqlalchemy_partial", "C95_kotlin_partial", "C95_snake_partial"], "note": "REFUTED as stated: two references to one table always give two members of one name in protobuf and GORM (C95_protobuf_refuted, C95_gorm_refuted), and with the naming functions of the library columns can clash in every generator (C95_columns_refuted). The _partial theorems: distinct if the names stay apart; C95_snake_partial: the library keeps names in snake case apart."},
  {"property": "C96", "status": "partial", "theorems": ["C96_refuted", "C96_protobuf_partial", "C96_gorm_partial", "C96_graphql_partial", "C96_sqlalchemy_partial", "C96_kotlin_partial", "C96_snake_partial"], "note": "REFUTED as stated: C96_refuted (same camel case; a table query in GraphQL, a table base in SQLAlchemy; Kotlin files written twice). The _partial theorems say when the types are distinct; C96_snake_partial: they are for tables in snake case without further names."},
  {"property": "C97", "status": "proved", "theorems": ["C97_mysql", "C97_quickdbd", "C97_plantuml", "C97_graphql", "C97_dbml", "C97_protobuf", "C97_gorm", "C97_kotlin", "C97_xlsx"], "note": "Lines, files and rows of both runs compared as subsequences, without any assumption on names. GORM under the condition of C45 (no table has the columns of two models). C97_target_case: the condition on references is needed."},
  {"property": "C98", "status": "partial", "theorems": ["C98_sqlalchemy_file_refuted", "C98_sqlalchemy_files_refuted", "C98_liquibase_refuted", "C98_sqlalchemy_file_partial", "C98_sqlalchemy_files_partial", "C98_same_first_partial", "C98_liquibase_partial", "C98_appended_partial"], "note": "REFUTED as stated: the import line of the SQLAlchemy file changes, with one file per table the former first file loses the import of Column, and Liquibase ids shift (C98_*_refuted). The _partial theorems: everything besides import lines stays; the files stay if the first table does; the changes stay but for ids; all stays if tables are added at the end."},
  {"property": "C99", "status": "partial", "theorems": ["C99_ddl_creates_partial", "C99_only_acceptable", "C99_again", "C99_ddl_creates_refuted", "C99_same_name_refuted"], "note": "REFUTED as stated: an auto-increment column without a key and an index on a missing column make the server refuse the statement (C99_ddl_creates_refuted), the second of two tables of the same name is silently left out (C99_same_name_refuted). Proved for schemas with distinct table names, plain names and texts, and tables the server accepts; C99_only_acceptable shows that the last condition is exactly what is needed."},
  {"property": "C100", "status": "partial", "theorems": ["C100_script_migrates_partial", "C100_first_key_refuted", "C100_other_key_refuted", "C100_index_refuted", "C100_rename_refuted", "C100_comment_refuted", "C100_type_refuted", "C100_added_column_refuted", "C100_dropped_column_refuted"], "note": "REFUTED as stated: a first primary key or another key for an auto-increment column stops the script; added indices, names of unique keys of renamed tables, comments of columns that become NOT NULL, changed types, added and dropped columns are missing afterwards (C100_*_refuted). Proved for all diffs whose kept tables change only as `alterable` says (NOT NULL of bare columns, auto-increment on, primary keys) with any dropped, created and (without unique key) renamed tables."},
  {"property": "C101", "status": "partial", "theorems": ["C101_flyway_partial", "C101_liquibase_partial", "C101_md"], "note": "Proved at the level of the commands. The migrations have the conditions of C100 and C25, which refute them without (C100_*_refuted, C25_*_refuted); the option uniqueNameSuffix does not reach the Liquibase diff (C82), so its names end in nothing."},
  {"property": "C102", "status": "proved", "theorems": ["C102_needed", "C102_enough"], "note": "Which options a command needs is read off the flags marked Required in the code; the documentation does not say."},
  {"property": "C103", "status": "partial", "theorems": ["C103_mysql_files_partial", "C103_mysql_server_partial"], "note": "REFUTED as stated: see C54_ddl_round_trip_refuted (what the DDL does not keep) and C99 (what the server refuses). Proved at the level of the commands for plain tables whose columns survive; the SQL parser of the import is any function that agrees with the grammar of MysqlGrammar."},
  {"property": "C104", "status": "partial", "theorems": ["C104_xlsx_files_partial"], "note": "REFUTED as stated: see C33_roundtrip_refuted. Proved at the level of the commands for plain tables; reading and writing of the workbook file is any pair of functions that keeps the cells."},
  {"property": "C105", "status": "proved", "theorems": ["C105_texts", "C105_refused", "C105_written"], "note": "RFC 8259 leaves half surrogate pairs and bytes that are not UTF-8 to the reader; the grammar follows the documentation of encoding/json (U+FFFD)."},
  {"property": "C106", "status": "proved", "theorems": ["C106_gorm", "C106_kt", "C106_sqlalchemy", "C106_pb", "C106_liquibase", "C106_graphql", "C106_dbml", "C106_quickdbd", "C106_plantuml"], "note": "Names have to be words and packages package names, as in C48, C61, C64, C67, C71. The labels of one-to-many fields in Protobuf files are left out (see C61); the options without effect are those of C82. The files of export mysql and export xlsx are covered by C103 and C104."},
  {"property": "C107", "status": "partial", "theorems": ["C107_kotlin", "C107_gorm_partial", "C107_gorm_refuted", "C107_graphql_partial", "C107_graphql_refuted", "C107_proto_partial", "C107_proto_refuted", "C107_sqlalchemy_partial", "C107_sqlalchemy_refuted", "C107_mysql_partial", "C107_mysql_refuted", "C107_liquibase_partial", "C107_liquibase_refuted"], "note": "REFUTED as stated for all targets but Kotlin (C107_kotlin, no exceptions): Go has no null for enums and one byte for BIT; GraphQL's Int has 32 bits for INT64, and Float cannot hold 0.01; Protocol Buffers likewise for decimals, and have no type for dates and bytes; SQLAlchemy's Float and LargeBinary are FLOAT and BLOB on MySQL; the DDL drops the size of BINARY; change logs write BLOB for all blobs (C107_*_refuted). The partial theorems are equivalences: they say for exactly which columns there is room. Names as in C48, C61, C64, C67, C71; tables as in C99 and C27. SQLAlchemy in the form of a single file; SQLAlchemy and Liquibase with sizes where they belong. What Liquibase makes of BLOB, and a server of FLOAT and BLOB, are parameters. Ranges of dates are not part of the values."},
  {"property": "C108", "status": "partial", "theorems": ["C108_releases_partial", "C108_releases_refuted", "C108_one_database"], "note": "REFUTED in general with C100: added and dropped columns, types, comments, indices and new keys are not brought into the database. The theorem has the conditions of C100 and C101 for every pair of neighbouring files (names and texts that need no quoting, tables the server accepts, changes a script can express) and no groups. The server is the one of C99 and C100."},
  {"property": "C109", "status": "partial", "theorems": ["C109_second_trip_partial", "C109_files_partial", "C109_settles_refuted"], "note": "REFUTED without conditions: for every number of trips there is a valid schema that the next trip changes, as descriptions are exported without escapes and read with them, so that each trip halves a run of backslashes (C109_settles_refuted). Partial as C54 and C56: names and texts that need no quoting, default values of the supported forms, column names that differ within a table; for files also table names that differ, a valid schema, and the same author and version in both imports. The DDL parser is the reader of MysqlGrammar."},
  {"property": "C110", "status": "partial", "theorems": ["C110_second_trip_partial", "C110_settles", "C110_settled_twice", "C110_files_partial", "C110_same_refuted", "C110_types_refuted", "C110_files_refuted"], "note": "REFUTED as stated: an on-update value becomes the default value (C110_same_refuted, see C35), decimal(65536,2) loses its scale as the size is read as 0 (C110_types_refuted), and a workbook with the cell bigint(20) is imported but the one exported from it, with int64(20), is not (C110_files_refuted). Proved: apart from on-update values nothing changes for any importable workbook whose sheets have names and whose types are steady; values once replaced stay. For files also: cells in UTF-8, types of octopus files, tables that differ in group and name, and a spreadsheet library that keeps workbooks."},
  {"property": "C111", "status": "partial", "theorems": ["C111_same_partial", "C111_keys_refuted", "C111_defaults_refuted"], "note": "REFUTED as stated: the change log makes no indices and has a second unique key where one column is unique (C111_keys_refuted); it has the text fn::CURRENT_TIMESTAMP as default where the DDL has the function, no on-update values, and false for the default 1 of a Boolean (C111_defaults_refuted). Proved: the same names, columns in order, NOT NULL, auto-increment, comments, primary keys and unique keys with their names, for schemas whose DDL the server accepts, key columns marked not null, and default values that are plain values. Types are compared in C107 only. The databases are those of ServerSpec and Database."},
  {"property": "C112", "status": "partial", "theorems": ["C112_python_partial", "C112_python_unique_refuted", "C112_python_null_refuted", "C112_kotlin_partial", "C112_kotlin_unique_refuted", "C112_gorm_partial", "C112_gorm_null_refuted"], "note": "REFUTED as stated: with two unique columns a SQLAlchemy class makes each of them unique on its own and its UniqueConstraint, a bare expression outside __table_args__, has no effect (C112_python_unique_refuted); an auto-increment NOT NULL column outside the key may be null in SQLAlchemy classes and GORM structs (C112_python_null_refuted, C112_gorm_null_refuted); the constraint of a Kotlin entity names properties, which Hibernate does not find if the column has a name of its own (C112_kotlin_unique_refuted). Proved without these cases for single-file SQLAlchemy output, Kotlin entities with the naming strategy of the generator, and GORM structs without embedded structs. Types are C107. What the ORMs read is stated in MappedPySpec, MappedKtSpec and MappedGoSpec; any @GeneratedValue counts as auto-increment, and indices are not compared."},
  {"property": "C113", "status": "partial", "theorems": ["C113_refuted", "C113_mysql", "C113_partial"], "note": "REFUTED as stated: valid DDL with an index on an expression crashes the import (C113_refuted, and C113_mysql says exactly when). C113_partial: every crash of every command has one of the causes listed in CrashSpec, namely null in place of a table or column, option texts such as 'a:b,c', such an index, an unnamed column of the former file version, nulls and dangling references of StarUML projects, a reference to a missing table in Protocol Buffers, and repositories for tables without key. Missing: that the external packages (xlsx, the SQL parser, templates) do not panic themselves, which is trusted."},
  {"property": "C114", "status": "partial", "theorems": ["C114_columns_refuted", "C114_renames_refuted", "C114_column_renames_refuted", "C114_partial"], "note": "REFUTED as stated: added columns are not reported (C20), so a dropped column has no opposite (C114_columns_refuted); removed items are tried in the order of their names and added ones in the order of the schema, so that of two tables or columns that are alike one may be renamed to one and back from the other (C114_renames_refuted, C114_column_renames_refuted). C114_partial: for schemas whose new tables and columns that are alike are listed by name and without a filter that leaves out tables, every change but a dropped column has its opposite. This is the diff behind the Flyway and Markdown commands; the Liquibase diff is not covered."},
  {"property": "C115", "status": "partial", "theorems": ["C115_added_refuted", "C115_constraint_refuted", "C115_autoinc_refuted", "C115_error_refuted", "C115_partial"], "note": "REFUTED as stated: only the change log has added columns (C115_added_refuted, see C20) and the drop of a constraint of a table without unique columns (C115_constraint_refuted, see C26); only the other diff has auto-increment turned off (C115_autoinc_refuted); default values that are not numbers end the change log with an error (C115_error_refuted). C115_partial: without these, the log consists of the statements about the changes of the other diff one by one in the same order. The texts of types and default values are left to C25 and C107; both diffs are given the same order of the maps."},
  {"property": "C116", "status": "partial", "theorems": ["C116_partial", "C116_lone_refuted", "C116_one_database"], "note": "REFUTED as stated: if a table has exactly one unique column the constraint made with the table has no name, and a change log that moves it to another column fails or leaves it on the old one (C116_lone_refuted, for every server). C116_partial: any number of versions whose tables have no or several unique columns, where each version only changes what a change log can express (log_follows: the conditions of C25, stated without mentioning the log), with the suffix of constraint names empty because diff liquibase does not pass its option on (C106). C116_one_database: the database a schema has is unique up to order."},
  {"property": "C117", "status": "partial", "theorems": ["C117_report_partial", "C117_log_partial", "C117_filtered_refuted"], "note": "REFUTED as stated: an unchanged table that the chosen groups leave out is dropped (C117_filtered_refuted). C117_report_partial and C117_log_partial: for selected tables with distinct column names whose name no other table of the schema has, at any positions and any number of them."},
  {"property": "C118", "status": "partial", "theorems": ["C118_log_partial", "C118_report_partial", "C118_script_partial", "C118_script_refuted", "C118_groups_refuted", "C118_taken_refuted"], "note": "REFUTED as stated: the Flyway script of a renamed or removed column leaves the values under the old name (C118_script_refuted), values of tables outside the chosen groups are lost (C118_groups_refuted), and a new column takes over the values of an unrelated removed one of the same attributes (C118_taken_refuted). C118_log_partial and C118_report_partial: for all schemas with distinct names, against the selected part of the new schema; values are lost only if every place where they may go has got other values. C118_script_partial: the script as read back, if no column of a remaining table disappears and the names need no quoting."},
  {"property": "C119", "status": "partial", "theorems": ["C119_steps_partial", "C119_direct_partial", "C119_steps_refuted", "C119_direct_refuted"], "note": "REFUTED as stated, although the databases are the same (C116): the steps lose the values of a column that one version does not have (C119_steps_refuted), the one step loses those of a column that is renamed in one version and changed in the next (C119_direct_refuted). C119_steps_partial: any number of versions with distinct names, all groups. C119_direct_partial: the values of columns that all versions have."},
  {"property": "C120", "status": "proved", "theorems": ["C120_file", "C120_command", "C120_utf8"], "note": "Proved in full: of the text that ToJson returns, for every schema, and of the file that each importing command writes."},
  {"property": "C121", "status": "partial", "theorems": ["C121_report_refuted", "C121_log_refuted", "C121_report_partial", "C121_log_partial", "C121_both", "C121_commands"], "note": "REFUTED for each of the two comparisons: the one for Flyway and Markdown overlooks new columns outside of keys, the one for Liquibase overlooks that auto-increment is turned off. C121_report_partial and C121_log_partial say exactly when each finds nothing, so nothing else is overlooked; C121_both: the two together find nothing exactly if the schemas agree. C121_commands is about the files that are written."},
  {"property": "C122", "status": "partial", "theorems": ["C122_mysql_partial", "C122_mysql_refuted", "C122_xlsx"], "note": "Workbooks: in full (C122_xlsx). MySQL DDL: REFUTED if descriptions are compared, as the DDL has none for tables (C122_mysql_refuted); proved if comments are not compared or no table has a description. Both need the schemas of C103 and C104, and comparisons of all tables."},
  {"property": "C123", "status": "proved", "theorems": ["C123_load", "C123_schemas", "C123_diffs", "C123_v1", "C123_staruml"], "note": "Proved in full. The struct declarations are repeated in Spec/ShapeSpec.v. encoding/json is modelled as documented; names of members are compared without case for ASCII only."},
  {"property": "C124", "status": "proved", "theorems": ["C124_exact", "C124_runs", "C124_others", "C124_order"], "note": "Proved in full for Model/Args.v, a transcription of urfave/cli v2.3.0 and of Go's package flag as far as the application uses them; neither is part of the repository. Completion for shells and the version flag behind the first of two words are not modelled."},
  {"property": "C125", "status": "partial", "theorems": ["C125_mistakes_partial", "C125_names_partial", "C125_environment_partial", "C125_count_partial", "C125_refuted", "C125_ignored_refuted"], "note": "REFUTED: behind an argument that is not an option, such as the word \"true\" behind a switch, all options are ignored, and the command may succeed (C125_refuted, C125_ignored_refuted). Proved: the mistakes listed are refused, and all options count if nothing but options follows the words of the command."},
  {"property": "C126", "status": "proved", "theorems": ["C126_only", "C126_each"], "note": "Proved in full for the eleven commands that read one schema; the lists are looks_at in Spec/MattersSpec.v. That the lists are exact is the union of C126_only and C126_each."},
  {"property": "C127", "status": "proved", "theorems": ["C127_only", "C127_each"], "note": "Proved in full for the three comparisons; the lists are compares in Spec/MattersSpec.v. C127_only assumes that the order in which Go goes through the map of renamed tables depends on its keys (pointers) only."},
  {"property": "C128", "status": "partial", "theorems": ["C128_refuted", "C128_script_refuted", "C128_generate_refuted", "C128_partial", "C128_generate_partial"], "note": "REFUTED in three ways: for all comparisons a renamed table one of whose columns is described anew is dropped and created instead of renamed; Flyway scripts carry descriptions of columns even if no table is new; Liquibase change logs always carry the descriptions of tables that are created. Proved: descriptions make no difference in reports and Liquibase change logs of differences if no table is new, and descriptions of columns make none in the change log of one schema."},
  {"property": "C129", "status": "partial", "theorems": ["C129_refuted", "C129_partial"], "note": "REFUTED for the program, whatever the options: a column added to a table with a reference takes over the number of the reference field. Proved for the generator if no table with references gets columns, or if the numbers of references start above those of all columns (an option the program ignores)."},
  {"property": "C130", "status": "proved", "theorems": ["C130_log", "C130_script"], "note": "Proved in full, for the commands. The options author (only of the comparison) and uniqueNameSuffix (only of the generator) are left out in C130_log."},
  {"property": "C131", "status": "partial", "theorems": ["C131_quickdbd_partial", "C131_dbml_partial", "C131_graphql_refuted", "C131_graphql_partial", "C131_plantuml_refuted", "C131_plantuml_partial", "C131_mysql_refuted", "C131_mysql_partial"], "note": "REFUTED in general. True of QuickDBD and DBML without conditions. False of GraphQL (a second column in the primary key changes the type of the first one; true if the primary keys stay), of PlantUML (a column before the primary key moves the separating line; true if primary keys come first) and of MySQL (the last column of a table without keys gets a comma; true if keys stay and each table has a key or an index)."},
  {"property": "C132", "status": "proved", "theorems": ["C132_script", "C132_log", "C132_report", "C132_created"], "note": "Proved in full, for the commands. The text of the change log is that of the YAML package, an argument; C132_log is about the change sets handed to it. The option groups makes no difference for what is dropped (see C19)."},
  {"property": "C133", "status": "proved", "theorems": ["C133_saved", "C133_panic", "C133_again"], "note": "Proved in full. Nothing in the program calls these functions. Strings that are not UTF-8 are changed by encoding/json, as for the current format (C105)."},
  {"property": "C134", "status": "partial", "theorems": ["C134_answers", "C134_groups", "C134_tables", "C134_renamed_refuted", "C134_renamed_partial"], "note": "REFUTED for IsRenamed, in both directions: the import takes the description as default value (C36). Proved: everything else in full, and that columns that are the same but for their name, description included, stay so."},
  {"property": "C135", "status": "proved", "theorems": ["C135_agree"], "note": "Proved in full, with the three independent readers of C37, C42 and C43. Only DBML shows sizes, and PlantUML shows neither the columns a reference is between nor default values; these are left out of the comparison."},
  {"property": "C136", "status": "partial", "theorems": ["C136_refuted", "C136_document_partial"], "note": "REFUTED: a line of backticks in the code ends it (C136_refuted). Proved for texts without line breaks where one line is asked for and without lines that look like a fence or heading. The program itself uses WriteLine only."},
  {"property": "C137", "status": "proved", "theorems": ["C137_int"], "note": "Proved in full, with strconv.Atoi as transcribed in Liquibase.v. Nothing calls the function."},
  {"property": "C138", "status": "proved", "theorems": ["C138_loads", "C138_commands"], "note": "Proved in full for the decoder of Json.v, which C139 shows to be the real one for documents that give no list and no reference twice. Names are compared as encoding/json does, for ASCII letters (it also takes the Kelvin sign for k and the long s for s)."},
  {"property": "C139", "status": "partial", "theorems": ["C139_refuted", "C139_schema_partial", "C139_table_partial", "C139_column_partial", "C139_no_repeats_partial"], "note": "REFUTED for lists: encoding/json decodes the second list of tables into the tables of the first, so a description or a primary key that only the first list gives stays; and a null as the last value leaves the first one. Proved for every text, number and boolean of schemas, tables and columns, if the first value can be read and the last is not null. Also proved: in documents that give no list and no reference twice, decoding in this way gives what the simpler decoder of the other theorems gives, with nil pointers where there are nulls."},
  {"property": "C140", "status": "partial", "theorems": ["C140_gorm_refuted", "C140_gorm_models_refuted", "C140_gorm_partial", "C140_protobuf_refuted", "C140_protobuf_front_refuted", "C140_protobuf_partial"], "note": "REFUTED in general. Go: a second unique column changes the tag of the first one (C140_gorm_refuted), the last missing column of an embedded model replaces the fields of the others (C140_gorm_models_refuted); true if no added column is unique, none completes a model and at most one model fits each table. Protocol Buffers: a column at the end changes the number of a relation, which breaks readers of old messages, and a column elsewhere the numbers of columns (C140_protobuf_refuted, C140_protobuf_front_refuted); true if columns are added at the end of tables without references, or if the numbers of relations start behind all columns."},
  {"property": "C141", "status": "partial", "theorems": ["C141_refuted", "C141_unique_refuted", "C141_key_refuted", "C141_partial"], "note": "REFUTED in general: a column at the end puts a comma behind the one before it (C141_refuted), a second unique column changes the constraint of the table (C141_unique_refuted), a second column of the key changes the id of the repository (C141_key_refuted). True if no added column is unique, belongs to the primary key or comes last; then the smaller schema can also be written whenever the larger one can."},
  {"property": "C142", "status": "partial", "theorems": ["C142_refuted", "C142_unique_refuted", "C142_partial"], "note": "REFUTED in general: the line that imports the types changes (C142_refuted), and a third unique column changes the constraint (C142_unique_refuted). True of all lines but the imports if no table with two or more unique columns gets another one, for one file and for one file per table."},
  {"property": "C143", "status": "partial", "theorems": ["C143_refuted", "C143_limit_refuted", "C143_partial", "C143_none_partial"], "note": "REFUTED in general: a quote in a name makes messages about different faults alike (C143_refuted), and the message about sets says that there have to be less than 64 members while 64 are accepted (C143_limit_refuted). True for names without quotes. The type in the message is the normalized one, not the one of the file."},
  {"property": "C144", "status": "partial", "theorems": ["C144_key_refuted", "C144_unique_refuted", "C144_same_refuted", "C144_partial"], "note": "REFUTED in general: a second column of the primary key (C144_key_refuted) or a second unique column (C144_unique_refuted) changes the declaration of the first one. True if no added column belongs to a key or is unique. C144_same_refuted: the change sets themselves cannot stay the same, so a regenerated log does not run on a database made by the old one."},
  {"property": "C145", "status": "proved", "theorems": ["C145_book", "C145_error"], "note": "For the workbook as sheets of rows of cells; whether a sheet name is accepted by the excel package is any function (name_ok). The styles and widths of the columns are not modelled."},
  {"property": "C146", "status": "partial", "theorems": ["C146_report_refuted", "C146_report_partial", "C146_log_partial"], "note": "REFUTED for the report and the Flyway script: C146_report_refuted; the change set with the added columns is built but never appended (diff.go:233-252), so such a comparison always reports nothing (C146_report_partial). True of the Liquibase diff if no table is left out by the groups (C146_log_partial); C19 has what happens then."},
  {"property": "C147", "status": "partial", "theorems": ["C147_report_partial", "C147_log_partial", "C147_script_refuted", "C147_script_partial"], "note": "REFUTED for the Flyway script (C147_script_refuted): dropping a column gives no SQL, so the script is always blank (C147_script_partial). True of the report and the Liquibase diff if no table is left out by the groups (C147_report_partial, C147_log_partial); C19 has what happens then."},
  {"property": "C148", "status": "partial", "theorems": ["C148_refuted", "C148_report_partial", "C148_log_partial", "C148_saved_report_partial", "C148_saved_log_partial"], "note": "REFUTED (C148_refuted): a table renamed in one file is dropped and created anew if only one of the files has an empty list of values for a column. True if the tables that have the columns of an old table agree with it (C148_report_partial, C148_log_partial), so of all files that the program has written (C148_saved_*_partial, for distinct names of tables)."},
  {"property": "C149", "status": "partial", "theorems": ["C149_pairs_refuted", "C149_names_refuted", "C149_report_partial", "C149_log_partial"], "note": "REFUTED if two renamed tables have the same columns, which are then mixed up (C149_pairs_refuted), and if a table gets the old name of another, when a table is dropped (C149_names_refuted). True otherwise if no table is left out by the groups (C149_report_partial, C149_log_partial)."},
  {"property": "C150", "status": "partial", "theorems": ["C150_pairs_refuted", "C150_names_refuted", "C150_report_partial", "C150_log_partial"], "note": "REFUTED if two renamed columns of a table are alike but for values and reference, which are then mixed up (C150_pairs_refuted), and if a column gets the old name of another, when a column is dropped (C150_names_refuted). True otherwise if no table is left out by the groups (C150_report_partial, C150_log_partial)."}
]}
