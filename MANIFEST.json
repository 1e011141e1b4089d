{
 "claims": [
  {
   "property": "C01",
   "status": "proved",
   "theorems": [
    "C01_column_admission"
   ],
   "note": ""
  },
  {
   "property": "C02",
   "status": "proved",
   "theorems": [
    "C02_foreign_keys_paired"
   ],
   "note": ""
  },
  {
   "property": "C03",
   "status": "proved",
   "theorems": [
    "C03_columns",
    "C03_columns_frame"
   ],
   "note": ""
  },
  {
   "property": "C04",
   "status": "proved",
   "theorems": [
    "C04_constraints"
   ],
   "note": ""
  },
  {
   "property": "C05",
   "status": "proved",
   "theorems": [
    "C05_database"
   ],
   "note": ""
  },
  {
   "property": "C06",
   "status": "proved",
   "theorems": [
    "C06_schemas_cover",
    "C06_schemas_exact"
   ],
   "note": ""
  },
  {
   "property": "C07",
   "status": "partial",
   "theorems": [
    "C07_exact",
    "C07_schema_leak_refuted"
   ],
   "note": "False as stated (refuted by a witness: overwriting a live table name leaks a schema count). C07_exact says exactly which schemas are listed after any history: those of live tables and those of tables that were replaced while live."
  },
  {
   "property": "C08",
   "status": "proved",
   "theorems": [
    "C08_validation_verdict"
   ],
   "note": ""
  },
  {
   "property": "C09",
   "status": "proved",
   "theorems": [
    "C09_validation_issues"
   ],
   "note": ""
  },
  {
   "property": "C10",
   "status": "partial",
   "theorems": [
    "C10_valid_fk_covers_key_partial",
    "C10_valid_fk_covers_key_refuted",
    "C10_exact"
   ],
   "note": "False as stated: the validator accepts a foreign key listing one key column twice. Proved when the to columns are distinct; C10_exact: for a referenced key without repeated columns this is the exact condition."
  },
  {
   "property": "C11",
   "status": "proved",
   "theorems": [
    "C11_counts",
    "C11_counts_balance"
   ],
   "note": ""
  },
  {
   "property": "C12",
   "status": "proved",
   "theorems": [
    "C12_letters",
    "C12_case_laws"
   ],
   "note": "C12_letters says what becomes of each letter. Letters outside ASCII are not modelled."
  },
  {
   "property": "C13",
   "status": "proved",
   "theorems": [
    "C13_camel"
   ],
   "note": "Names in general position are written as underscores, words joined by single underscores, underscores."
  },
  {
   "property": "C14",
   "status": "partial",
   "theorems": [
    "C14_exact",
    "C14_camel_idempotent_refuted"
   ],
   "note": "False as stated: refuted by a name with a doubled underscore (a__b -> A_b -> AB). C14_exact says exactly for which names it holds: those without two adjacent underscores between other characters."
  },
  {
   "property": "C15",
   "status": "proved",
   "theorems": [
    "C15_comma_lists"
   ],
   "note": ""
  },
  {
   "property": "C16",
   "status": "proved",
   "theorems": [
    "C16_shard_accessors",
    "C16_create_table_text",
    "C16_create_table_reads_back"
   ],
   "note": ""
  },
  {
   "property": "C17",
   "status": "proved",
   "theorems": [
    "C17_script_order",
    "C17_script_exists"
   ],
   "note": ""
  },
  {
   "property": "C18",
   "status": "proved",
   "theorems": [
    "C18_script_rebuilds_model",
    "C18_script_replaces_tables"
   ],
   "note": "Stronger than stated: any number of schemas as long as no constraint crosses a border, any catalog to start from; hypothesis own_fks (foreign keys belong to the table they are filed in) is what the API gives unless ready-made objects of another table are added. Names without double quotes and types without blanks (writable)."
  },
  {
   "property": "C19",
   "status": "partial",
   "theorems": [
    "C19_exact",
    "C19_plain",
    "C19_clauses_resolve_partial",
    "C19_clauses_resolve_refuted"
   ],
   "note": "False as stated: the case options change the column list but not the key clauses. C19_exact: for a valid model without constraints crossing schema borders the clauses resolve exactly when the options leave the names of all key columns alone. C19_plain: without case options exactly when no foreign key crosses a schema border."
  },
  {
   "property": "C20",
   "status": "partial",
   "theorems": [
    "C20_exact",
    "C20_plain",
    "C20_targets_created_partial",
    "C20_targets_created_refuted"
   ],
   "note": "False as stated: the referenced table is written with the schema of the referencing one. C20_exact gives the exact condition for any model and options, C20_plain for a valid model without case options: no constraint crosses a schema border."
  },
  {
   "property": "C21",
   "status": "proved",
   "theorems": [
    "C21_output_files"
   ],
   "note": ""
  },
  {
   "property": "C22",
   "status": "proved",
   "theorems": [
    "C22_comparison_total",
    "C22_table_differences"
   ],
   "note": "Stronger than stated: the comparison never fails, and each list is labelled with its own database."
  },
  {
   "property": "C23",
   "status": "proved",
   "theorems": [
    "C23_column_differences"
   ],
   "note": ""
  },
  {
   "property": "C24",
   "status": "proved",
   "theorems": [
    "C24_primary_key_differences"
   ],
   "note": ""
  },
  {
   "property": "C25",
   "status": "proved",
   "theorems": [
    "C25_relationship_differences"
   ],
   "note": ""
  },
  {
   "property": "C26",
   "status": "proved",
   "theorems": [
    "C26_foreign_key_differences"
   ],
   "note": ""
  },
  {
   "property": "C27",
   "status": "partial",
   "theorems": [
    "C27_fk_equality_refuted",
    "C27_fk_equality_partial"
   ],
   "note": "False as stated (refuted: not reflexive, not symmetric, ignores the other key's columns); what the comparison decides is characterised exactly."
  },
  {
   "property": "C28",
   "status": "partial",
   "theorems": [
    "C28_shard_content_refuted",
    "C28_shard_differences_partial",
    "C28_shard_content_partial"
   ],
   "note": "False as stated: shard keys with equal contents are reported when they are different objects. Proved: the exact criterion, and that different contents are always reported."
  },
  {
   "property": "C29",
   "status": "proved",
   "theorems": [
    "C29_mirror",
    "C29_mirror_unrestricted_refuted"
   ],
   "note": "Under the agreement the property names; unrestricted symmetry is refuted."
  },
  {
   "property": "C30",
   "status": "proved",
   "theorems": [
    "C30_self_comparison"
   ],
   "note": ""
  },
  {
   "property": "C31",
   "status": "proved",
   "theorems": [
    "C31_empty_differences"
   ],
   "note": ""
  },
  {
   "property": "C32",
   "status": "proved",
   "theorems": [
    "C32_apply_differences"
   ],
   "note": "The hypothesis shard_objects says that a shard key object that occurs on both sides has one content, as every Python object has; it holds of any two models read from files."
  },
  {
   "property": "C33",
   "status": "partial",
   "theorems": [
    "C33_new_tables_complete_refuted",
    "C33_new_tables_bare_partial"
   ],
   "note": "False as stated (refuted). Proved: in every comparison the only change about a new table is its creation."
  },
  {
   "property": "C34",
   "status": "partial",
   "theorems": [
    "C34_every_alter_refuted",
    "C34_alters_partial"
   ],
   "note": "False as stated: adding a primary key raises ValueError. Proved: every other difference has a statement, and a whole script exists exactly when no common table gains or changes a key."
  },
  {
   "property": "C35",
   "status": "proved",
   "theorems": [
    "C35_alter_texts",
    "C35_alter_injective",
    "C35_unrestricted_refuted"
   ],
   "note": "Texts read back as the object the difference is about. The last clause holds up to one exception, proved necessary: dropping a foreign key and dropping a relationship of the same name on one table give the same text."
  },
  {
   "property": "C36",
   "status": "proved",
   "theorems": [
    "C36_splitting",
    "C36_lines"
   ],
   "note": ""
  },
  {
   "property": "C37",
   "status": "partial",
   "theorems": [
    "C37_delivery_refuted",
    "C37_delivery_partial",
    "C37_exact"
   ],
   "note": "False as stated (refuted: of two statements ended on one line the second waits and may never be delivered). Proved: with at most one semicolon per line all are delivered; in general the number delivered and left is exact."
  },
  {
   "property": "C38",
   "status": "proved",
   "theorems": [
    "C38_clean",
    "C38_dashes",
    "C38_comments",
    "C38_limits"
   ],
   "note": "Cleanness for every text; dashes when no line opens a block comment; the content of block comments is irrelevant (line by line, one comment per line). C38_limits shows the two exceptions: a double dash inside a block comment, and a second comment on a line."
  },
  {
   "property": "C39",
   "status": "proved",
   "theorems": [
    "C39_types",
    "C39_looked_at"
   ],
   "note": ""
  },
  {
   "property": "C40",
   "status": "proved",
   "theorems": [
    "C40_stable"
   ],
   "note": ""
  },
  {
   "property": "C41",
   "status": "partial",
   "theorems": [
    "C41_cut",
    "C41_exact",
    "C41_fields_refuted",
    "C41_fields_partial",
    "C41_cut_unique",
    "C41_nothing_lost"
   ],
   "note": "False as stated: nested parentheses mislead the splitting (C41_fields_refuted). C41_cut: every text is cut exactly at the commas before which no parenthesis is open, where the first closing parenthesis closes all (shut). C41_exact: so the fields are those cut at top-level commas if and only if shut and depth 0 agree before every comma; C41_fields_partial is the case of parentheses that are not nested. C41_cut_unique, C41_nothing_lost: the cut is unique and nothing but white space is ever lost."
  },
  {
   "property": "C42",
   "status": "proved",
   "theorems": [
    "C42_create_name",
    "C42_alter_name",
    "C42_key_columns"
   ],
   "note": "CREATE: quotes of all three kinds, brackets and dots; ALTER: quotes, brackets, tabs, dots. For whole parsed databases see parsed_table in C44."
  },
  {
   "property": "C43",
   "status": "proved",
   "theorems": [
    "C43_alter"
   ],
   "note": ""
  },
  {
   "property": "C44",
   "status": "proved",
   "theorems": [
    "C44_parsed"
   ],
   "note": ""
  },
  {
   "property": "C45",
   "status": "proved",
   "theorems": [
    "C45_read_back",
    "C45_constraint_word_refuted",
    "C45_foreign_word_refuted",
    "C45_condition_refuted"
   ],
   "note": "Identifiers free of white space, quotes and the punctuation the reader reacts to; constraint names without the word 'constraint', relationship names without 'foreign', one-line join conditions without ' as ' and ' with ' (each restriction proved necessary by a witness); a table without columns must have no key."
  },
  {
   "property": "C46",
   "status": "proved",
   "theorems": [
    "C46_load",
    "C46_any_text",
    "C46_clean",
    "C46_missing",
    "C46_get",
    "C46_size"
   ],
   "note": ""
  },
  {
   "property": "C47",
   "status": "proved",
   "theorems": [
    "C47_write_load",
    "C47_exact",
    "C47_load_write_load",
    "C47_equality"
   ],
   "note": ""
  },
  {
   "property": "C48",
   "status": "proved",
   "theorems": [
    "C48_refused_exact",
    "C48_read_back",
    "C48_no_tables"
   ],
   "note": "For databases whose tables, columns and keys are as the reader can return them (excel_db); a database without tables is lost (C48_no_tables)."
  },
  {
   "property": "C49",
   "status": "partial",
   "theorems": [
    "C49_exact",
    "C49_partial",
    "C49_refuted"
   ],
   "note": "False as stated: names of foreign keys and relationships are regenerated and parallel relationships merge (refuted). C49_exact gives exactly what comes back, C49_partial the case where it is the same."
  },
  {
   "property": "C50",
   "status": "proved",
   "theorems": [
    "C50_layout"
   ],
   "note": ""
  },
  {
   "property": "C51",
   "status": "proved",
   "theorems": [
    "C51_incomplete",
    "C51_complete",
    "C51_blank",
    "C51_errors"
   ],
   "note": "Incomplete rows change nothing, complete rows do; what counts as blank is characterised. C51_errors: a workbook with all sheets, columns and header rows is never refused for want of one; only the contents of cells can raise."
  },
  {
   "property": "C52",
   "status": "partial",
   "theorems": [
    "C52_partial",
    "C52_refuted"
   ],
   "note": "Proved for foreign keys and shard keys; refuted for relationships: a row naming an unknown table raises AttributeError."
  },
  {
   "property": "C53",
   "status": "proved",
   "theorems": [
    "C53_exact",
    "C53_dangling"
   ],
   "note": "For databases whose tables are filed under their own names (as add_table does); a relationship to a table that is not there raises AttributeError exactly when it is met (C53_dangling)."
  },
  {
   "property": "C54",
   "status": "proved",
   "theorems": [
    "C54_names",
    "C54_paths",
    "C54_exact",
    "C54_dangling",
    "C54_lists"
   ],
   "note": "For databases without relationships to missing tables; those raise AttributeError (C54_dangling). Any iteration order of Python sets."
  },
  {
   "property": "C55",
   "status": "partial",
   "theorems": [
    "C55_chain_refuted",
    "C55_reviewer_refuted",
    "C55_default",
    "C55_shard_refuted"
   ],
   "note": "False for limits read from a configuration file: they are kept as text, so the comparison raises TypeError (C55_chain_refuted for every database with a path, C55_shard_refuted for the sharding review, C55_reviewer_refuted for the whole reviewer). Limits absent from the file take their defaults (C55_default), and numbers given in the program are honoured (see C54, C58)."
  },
  {
   "property": "C56",
   "status": "proved",
   "theorems": [
    "C56_acyclic",
    "C56_cycle"
   ],
   "note": ""
  },
  {
   "property": "C57",
   "status": "proved",
   "theorems": [
    "C57_exact"
   ],
   "note": ""
  },
  {
   "property": "C58",
   "status": "proved",
   "theorems": [
    "C58_exact",
    "C58_defaults",
    "C58_never_both",
    "C58_skew"
   ],
   "note": "Floating point division is any function meeting the record `rounding` of SpecShard (order, exactness on doubles). Row limits are integers below 2^26, skew limits not negative, at most 2^27 shards: larger ones need not be representable."
  },
  {
   "property": "C59",
   "status": "partial",
   "theorems": [
    "C59_partial",
    "C59_duplicates_refuted",
    "C59_self_join",
    "C59_self_refuted"
   ],
   "note": "Proved when the columns grouped by tell rows apart and the counted column is never NULL (as for a primary key), for joins between different tables. Refuted for tables without primary key that hold equal rows (C59_duplicates_refuted) and for joins of a table with itself (C59_self_refuted): both queries are then the same text, so with a consistent server no such join is ever called 1:M (C59_self_join)."
  },
  {
   "property": "C60",
   "status": "proved",
   "theorems": [
    "C60_condition"
   ],
   "note": "Parentheses inside quoted names do not count; names hold no double quote."
  },
  {
   "property": "C61",
   "status": "proved",
   "theorems": [
    "C61_exact",
    "C61_only",
    "C61_unknown"
   ],
   "note": "C61_unknown adds what happens with tables the worksheet or database does not know."
  },
  {
   "property": "C62",
   "status": "partial",
   "theorems": [
    "C62_exact_partial",
    "C62_refuted"
   ],
   "note": "Refuted: the probes exchange the columns of the two tables (C62_refuted). C62_exact_partial says exactly when the clauses fit."
  },
  {
   "property": "C63",
   "status": "proved",
   "theorems": [
    "C63_dispatch",
    "C63_calls",
    "C63_module"
   ],
   "note": "C63_module spells it out for the reviews at hand."
  },
  {
   "property": "C64",
   "status": "partial",
   "theorems": [
    "C64_nothing",
    "C64_names_given",
    "C64_column_properties",
    "C64_reads",
    "C64_formulas_refuted",
    "C64_column_id",
    "C64_no_colons"
   ],
   "note": "The reader is given what yaml.safe_load returns. Reading is exact for documents of the described form (C64_reads). Refuted for formulas without name or expression, which silently drop all following formulas (C64_formulas_refuted). A column id with two :: has its source cut at the second (C64_column_id)."
  },
  {
   "property": "C65",
   "status": "partial",
   "theorems": [
    "C65_convert",
    "C65_convert_refuted",
    "C65_ddldiff",
    "C65_review",
    "C65_review_version_refuted",
    "C65_review_missing_refuted"
   ],
   "note": "Exact characterisation of what each tool accepts, with its messages (C65_convert, C65_ddldiff, C65_review). Refuted where this differs from the messages: convert_ddl asks for a source its message does not name and accepts --to_excel alone; review_model refuses --version alone and accepts a missing database file."
  },
  {
   "property": "C66",
   "status": "proved",
   "theorems": [
    "C66_reachable_well_formed"
   ],
   "note": ""
  },
  {
   "property": "C67",
   "status": "proved",
   "theorems": [
    "C67_case",
    "C67_after_paren",
    "C67_after_blank"
   ],
   "note": ""
  },
  {
   "property": "C68",
   "status": "proved",
   "theorems": [
    "C68_number"
   ],
   "note": ""
  },
  {
   "property": "C69",
   "status": "proved",
   "theorems": [
    "C69_parse_errors"
   ],
   "note": ""
  },
  {
   "property": "C70",
   "status": "proved",
   "theorems": [
    "C70_fixed_point"
   ],
   "note": ""
  },
  {
   "property": "C71",
   "status": "partial",
   "theorems": [
    "C71_refuted",
    "C71_sheets",
    "C71_columns"
   ],
   "note": "False: the writer keeps the tables of the first database (refuted for every second save). C71_sheets and C71_columns say exactly what the four sheets then hold."
  },
  {
   "property": "C72",
   "status": "proved",
   "theorems": [
    "C72_file_name"
   ],
   "note": ""
  },
  {
   "property": "C73",
   "status": "partial",
   "theorems": [
    "C73_or_replace_partial",
    "C73_shard_refuted"
   ],
   "note": "False as stated: the shard clause of CREATE OR REPLACE TABLE is never read (C73_shard_refuted). C73_exact says in general what the two statements define: the same table without its shard key, or the same failure; so they agree exactly if CREATE TABLE defines no shard key. C73_or_replace_partial is the case without the clause."
  },
  {
   "property": "C74",
   "status": "proved",
   "theorems": [
    "C74_replaces"
   ],
   "note": ""
  },
  {
   "property": "C75",
   "status": "proved",
   "theorems": [
    "C75_formulas"
   ],
   "note": ""
  },
  {
   "property": "C76",
   "status": "proved",
   "theorems": [
    "C76_keys",
    "C76_half"
   ],
   "note": ""
  },
  {
   "property": "C77",
   "status": "proved",
   "theorems": [
    "C77_undocumented",
    "C77_descriptions"
   ],
   "note": ""
  },
  {
   "property": "C78",
   "status": "partial",
   "theorems": [
    "C78_refuted",
    "C78_one_key",
    "C78_comment_first",
    "C78_swallowed_refuted",
    "C78_first_value_refuted",
    "C78_second_key_refuted"
   ],
   "note": "Refuted: every line but the first gets a blank in front, so the text handed to the YAML reader is not that of the file (C78_refuted). For every reader that understands block mappings and sequences with values on one line (SpecYaml): a file that begins with its only key, such as worksheet:, is read as its YAML says (C78_one_key), and so is one that begins with an empty line or a comment (C78_comment_first); if the first key has no value all following keys are taken as its value and KeyError is raised (C78_swallowed_refuted); if it has a value, such as guid:, or an indented value before another key, what is handed over is not YAML of this form (C78_first_value_refuted, C78_second_key_refuted). Other YAML is not modelled."
  },
  {
   "property": "C79",
   "status": "proved",
   "theorems": [
    "C79_converted"
   ],
   "note": ""
  },
  {
   "property": "C80",
   "status": "partial",
   "theorems": [
    "C80_unreadable_partial",
    "C80_no_model_refuted",
    "C80_no_database",
    "C80_exact",
    "C80_cluster_fails",
    "C80_cluster_refuted"
   ],
   "note": "False as stated. C80_exact says exactly what happens when there is no model to read (missing DDL file, workbook without databases): nothing is sent and no file changes, except that the TQL output is emptied unless --validate is given. When reading a file raises (C80_unreadable_partial) or the cluster does not answer (C80_cluster_fails) nothing is touched; an answer that cannot be parsed stays in the temporary file (C80_cluster_refuted)."
  },
  {
   "property": "C81",
   "status": "proved",
   "theorems": [
    "C81_only_named_files"
   ],
   "note": ""
  },
  {
   "property": "C82",
   "status": "partial",
   "theorems": [
    "C82_existing_file_refuted",
    "C82_left_behind_refuted",
    "C82_finished",
    "C82_left_behind"
   ],
   "note": "False as stated: an existing file of that name is lost (C82_existing_file_refuted), and the file stays when the cluster fails (C82_left_behind_refuted). C82_finished: whatever the surroundings do, a run that finishes leaves no temporary file and changes nothing but the named outputs and files with the name of a temporary one. C82_left_behind: a file left behind means that the run raised."
  },
  {
   "property": "C84",
   "status": "partial",
   "theorems": [
    "C84_schema_ddl",
    "C84_schema_cluster_refuted"
   ],
   "note": "Proved for DDL files (C84_schema_ddl); refuted for a cluster, where --schema is ignored."
  },
  {
   "property": "C85",
   "status": "partial",
   "theorems": [
    "C85_password_refuted"
   ],
   "note": "Refuted for every accepted command line: main prints the whole argument namespace."
  },
  {
   "property": "C86",
   "status": "proved",
   "theorems": [
    "C86_validation_reports"
   ],
   "note": ""
  },
  {
   "property": "C87",
   "status": "partial",
   "theorems": [
    "C87_ddldiff",
    "C87_alter1",
    "C87_same_file",
    "C87_same_file_refuted"
   ],
   "note": "What is printed and when nothing is reported is proved in general. Self comparison is characterised exactly by C87_same_file and refuted by C87_same_file_refuted: sharded tables, and foreign keys with different column names, are reported as different from themselves."
  },
  {
   "property": "C88",
   "status": "partial",
   "theorems": [
    "C88_ignore_case_refuted"
   ],
   "note": "Refuted: the option changes nothing but the printed arguments."
  },
  {
   "property": "C89",
   "status": "partial",
   "theorems": [
    "C89_config_refuted"
   ],
   "note": "Refuted: --config_file is only checked for existence; with any two configuration files the tool does the same (C89_config_refuted)."
  },
  {
   "property": "C90",
   "status": "proved",
   "theorems": [
    "C90_review_output",
    "C90_descriptions"
   ],
   "note": "The reviews themselves are described by C53-C63; what single reviews print while running is not modelled."
  },
  {
   "property": "C91",
   "status": "partial",
   "theorems": [
    "C91_exact",
    "C91_through_excel_partial",
    "C91_relationship_refuted"
   ],
   "note": "C91_exact: for models Excel can hold (excel_db) the detour writes the TQL of the same model with its relationships under their usual names, of several with one name the last (refiled). C91_through_excel_partial: so it is the same file when they have these names. Refuted for relationships with names of their own (C91_relationship_refuted)."
  },
  {
   "property": "C92",
   "status": "partial",
   "theorems": [
    "C92_conversion_same_partial",
    "C92_serial_refuted"
   ],
   "note": "C92_conversion_same_partial says exactly when the comparison is empty, for files with plain names. Refuted by C92_serial_refuted: a column typed INT (from serial, rowversion, NUMBER(5,0)) is read again as BIGINT; likewise sharded tables are always reported, and so are foreign keys between columns of different names."
  },
  {
   "property": "C93",
   "status": "proved",
   "theorems": [
    "C93_any_server"
   ],
   "note": ""
  },
  {
   "property": "C94",
   "status": "proved",
   "theorems": [
    "C94_case_options"
   ],
   "note": ""
  },
  {
   "property": "C95",
   "status": "partial",
   "theorems": [
    "C95_result_partial",
    "C95_exact",
    "C95_runs_partial",
    "C95_created_holds",
    "C95_always_refuted"
   ],
   "note": "False as stated (refuted for whole classes of models: new foreign and shard keys over new columns, foreign keys to tables created later, a foreign key taking the name of a dropped relationship). Proved: the exact condition under which the script runs; that whenever it runs the result is model 2 (for complete differences, as in C32); that it runs under conditions on the two models; and that a database made by the creation script holds its model. Missing: models over several schemas, for which the ALTER statements do not say the schema of referenced tables."
  },
  {
   "property": "C96",
   "status": "partial",
   "theorems": [
    "C96_same",
    "C96_heard_partial",
    "C96_unnamed_refuted",
    "C96_quiet_file",
    "C96_own_scripts"
   ],
   "note": "All kinds of statements are covered except a foreign key without the word CONSTRAINT: C96_unnamed_refuted proves that such a statement changes nothing and is silent exactly when it begins 'alter table \u2026 add'. A shard key statement is silent when the model has a table whose name is empty."
  },
  {
   "property": "C97",
   "status": "proved",
   "theorems": [
    "C97_lines",
    "C97_dots_refuted",
    "C97_printed"
   ],
   "note": "The criterion for foreign keys of one name is that of C26 and for shard keys object identity (C28), so in ddldiff a table sharded in both files is always reported. C97_dots_refuted shows why schema names must have no dots in the first theorem; C97_printed needs no such restriction."
  },
  {
   "property": "C98",
   "status": "partial",
   "theorems": [
    "C98_alter1_partial",
    "C98_migrate_partial"
   ],
   "note": "False without conditions (C95_always_refuted gives whole classes of failing pairs; C33, C27 and C34 the incomplete ones). C98_alter1_partial and C98_migrate_partial prove it for the tools run in a row, for consistent models that meet the conditions of C95."
  },
  {
   "property": "C99",
   "status": "partial",
   "theorems": [
    "C99_create_partial",
    "C99_types",
    "C99_key_column_refuted",
    "C99_default_refuted",
    "C99_inline_key_refuted",
    "C99_limits"
   ],
   "note": "False without conditions: C99_key_column_refuted, C99_default_refuted and C99_inline_key_refuted prove that whole classes of ordinary statements lose a column, get BIGINT whatever the type, or lose the key; C99_limits gives seven more statements that are misread. C99_create_partial proves the property under the conditions of good_create_decl (in SpecDialect), C99_types for fifty type names in any case. C99_case is a complete SQL Server statement; it also shows the names of C42 for CREATE TABLE."
  },
  {
   "property": "C100",
   "status": "partial",
   "theorems": [
    "C100_layout_partial",
    "C100_same",
    "C100_go_refuted",
    "C100_comment_refuted",
    "C100_white"
   ],
   "note": "False without conditions: C100_go_refuted proves that every line beginning with GO (such as a column GOAL) is dropped, C100_comment_refuted that a line with a block comment is glued to the line before, and C37 that of several statements ended on one line only one is delivered then. C100_layout_partial and C100_same prove the property for files without block comments and with at most one semicolon a line outside comments, with GO lines left out. C100_white says which characters are white space and what stripping leaves."
  },
  {
   "property": "C101",
   "status": "partial",
   "theorems": [
    "C101_key_partial",
    "C101_references_partial",
    "C101_relation_partial",
    "C101_options_refuted",
    "C101_with_check_refuted",
    "C101_no_blank_refuted",
    "C101_add_refuted",
    "C101_back_quotes_refuted"
   ],
   "note": "False in general: C101_options_refuted (parenthesised options after the key are taken as the key), C101_with_check_refuted (the words WITH CHECK before ADD lose the foreign keys), C101_no_blank_refuted (no blank before the parenthesis loses the key), C101_add_refuted (a second ADD, or a referenced name such as Address, loses the foreign keys) and C101_back_quotes_refuted are proved for all such statements. C101_key_partial, C101_references_partial and C101_relation_partial prove the property for the statements without these traps, as SpecAlterDialect describes them."
  },
  {
   "property": "C102",
   "status": "partial",
   "theorems": [
    "C102_exact",
    "C102_total",
    "C102_order",
    "C102_help",
    "C102_ambiguous",
    "C102_dashes",
    "C102_unknown",
    "C102_any_text",
    "C102_convert",
    "C102_diff",
    "C102_review",
    "C102_documented",
    "C102_samples",
    "C102_review_sample_refuted"
   ],
   "note": "False for the README's commands of review_model: C102_review_sample_refuted shows that the sample with --ts_url, for all names, and every command line with --show_descriptions are refused; C102_documented shows that --config_file is undocumented. Everything else is proved: C102_exact, C102_total, C102_order, C102_help, C102_ambiguous, C102_dashes, C102_unknown and C102_any_text for every parser of flags and options with one text, C102_convert, C102_diff and C102_review for the tools, C102_samples for the README's commands of convert_ddl. argparse is modelled as in Python 3.11."
  },
  {
   "property": "C103",
   "status": "partial",
   "theorems": [
    "C103_convert",
    "C103_ddldiff",
    "C103_review",
    "C103_lost_partial",
    "C103_silent_convert_partial",
    "C103_silent_ddldiff_partial",
    "C103_silent_review_partial",
    "C103_shard_partial",
    "C103_shard_told",
    "C103_unnamed_refuted"
   ],
   "note": "False of foreign keys without the word CONSTRAINT, which are dropped without a word at every place of every script (C103_unnamed_refuted). ALTER TABLE statements that add a shard key are never carried out; silence means that there are none, unless a table has the empty name (C103_shard_partial). C103_convert, C103_ddldiff and C103_review show that the messages come out first whatever happens later. Debug output (--debug) is left to C124."
  },
  {
   "property": "C104",
   "status": "proved",
   "theorems": [
    "C104_same",
    "C104_visible",
    "C104_joins",
    "C104_worksheet",
    "C104_offline",
    "C104_file"
   ],
   "note": "C104_same, C104_visible, C104_joins, C104_worksheet, C104_offline; C104_file is the whole output of review_model for a DDL file. The text of a failed query's exception and of YAML values that are no texts are arbitrary functions."
  },
  {
   "property": "C105",
   "status": "proved",
   "theorems": [
    "C105_texts",
    "C105_reads",
    "C105_tool",
    "C105_option_refuted"
   ],
   "note": "C105_texts (the characters), C105_reads (the reviews of a model that is read), C105_tool (everything the tool sends, in every run). C105_option_refuted: a database name with a semicolon is sent as it is."
  },
  {
   "property": "C106",
   "status": "proved",
   "theorems": [
    "C106_first",
    "C106_lines",
    "C106_incomplete",
    "C106_relationship",
    "C106_silent",
    "C106_blank"
   ],
   "note": "C106_first, C106_lines (exact), C106_incomplete, C106_blank, C106_relationship, C106_silent. Cells with numbers where a text is expected are outside the model (reading then fails); C106_silent says nothing about the values of the cells, see C107."
  },
  {
   "property": "C107",
   "status": "proved",
   "theorems": [
    "C107_databases",
    "C107_tables",
    "C107_contents",
    "C107_reads"
   ],
   "note": "C107_databases, C107_tables, C107_contents, C107_reads. Schema, primary key and shard key of a table are C76. Cells with numbers where a text is expected are outside the model."
  },
  {
   "property": "C108",
   "status": "partial",
   "theorems": [
    "C108_refuted",
    "C108_databases",
    "C108_tables",
    "C108_described",
    "C108_kept",
    "C108_untouched"
   ],
   "note": "False as stated: C108_refuted. What happens instead is proved for every history of reads, including reads that raised (C111): C108_databases, C108_tables, C108_described, C108_kept, C108_untouched."
  },
  {
   "property": "C109",
   "status": "partial",
   "theorems": [
    "C109_whole",
    "C109_refuted",
    "C109_statements",
    "C109_database",
    "C109_error",
    "C109_complete"
   ],
   "note": "False as stated: C109_refuted says what is returned instead, at every failure point. C109_statements, C109_database, C109_error and C109_complete say what may be missing. C109_whole ties the model of reading to the one used everywhere else. The command-line tools are modelled on files that can be read in full."
  },
  {
   "property": "C110",
   "status": "proved",
   "theorems": [
    "C110_clients",
    "C110_tables",
    "C110_databases",
    "C110_away",
    "C110_apart",
    "C110_copied",
    "C110_shared_refuted",
    "C110_inner_refuted",
    "C110_view_refuted"
   ],
   "note": "C110_tables and C110_databases give the effect of every call in every reachable state with shared objects, in terms of the functions on values that all other theorems use. C110_copied, C110_away, C110_apart and C110_clients are what follows for clients. The three refuted theorems show that the provisos are needed. Assignments to attributes of objects (other than shard_key) are not in the programs."
  },
  {
   "property": "C111",
   "status": "partial",
   "theorems": [
    "C111_same",
    "C111_failed",
    "C111_blank",
    "C111_format",
    "C111_kept",
    "C111_unchanged_refuted",
    "C111_result_refuted",
    "C111_results"
   ],
   "note": "False as stated: C111_unchanged_refuted, C111_result_refuted. What is left is given exactly by C111_failed, C111_blank and C111_format; C111_same ties this model to that of the other properties. C111_kept: nothing held before is lost. C111_results with C108: reading goes on as described there. TypeError stands for what is outside the model, as everywhere in Excel.v."
  },
  {
   "property": "C112",
   "status": "partial",
   "theorems": [
    "C112_ddldiff",
    "C112_review",
    "C112_review_finished",
    "C112_left_refuted",
    "C112_removed_refuted"
   ],
   "note": "False as stated for review_model with a cluster: C112_left_refuted, C112_removed_refuted, each for a class of runs. C112_ddldiff: the claim for ddldiff. C112_review: at most the one file changes, in every run. C112_review_finished: a run that finishes leaves no new file and has at most removed this one."
  },
  {
   "property": "C113",
   "status": "proved",
   "theorems": [
    "C113_convert",
    "C113_ddldiff",
    "C113_review",
    "C113_again",
    "C113_again_ddldiff",
    "C113_again_review"
   ],
   "note": "C113_convert, C113_ddldiff, C113_review: two runs that agree on the inputs end the same way, print and send the same, and leave every file equal or untouched. C113_again (for a run that left its input as it was), C113_again_ddldiff, C113_again_review: repeated on the files it left, a run does the same and changes no file. C113_over_case shows that the condition is needed. Failures of open and write are those of the host, a function of the file name and of what the run itself has written before."
  },
  {
   "property": "C114",
   "status": "proved",
   "theorems": [
    "C114_sound",
    "C114_usable",
    "C114_kept",
    "C114_converts"
   ],
   "note": "C114_sound: an invariant of the reader over all histories, including readings that raised (the state left is that of C111). C114_usable: such a database is validated and written as TQL in every case but camel case. C114_kept: written to and read from Excel it is the same, relationships included, if its texts fit into cells. C114_converts: convert_ddl succeeds for every model it has read, for every source, given what C79 requires of the Excel writer and the cluster. Texts in the cells for numbers of shards and numbers in the cells for texts are outside the model."
  },
  {
   "property": "C115",
   "status": "proved",
   "theorems": [
    "C115_back",
    "C115_refuted"
   ],
   "note": "C115_back: the two runs of convert_ddl succeed and what a reader finds in the workbook written last is the model read first, up to the names of database and schema and the types of C45. It needs the invariant of C114, which says that relationships read from a workbook have their usual names. C115_refuted: for a column name with a comma it fails, although such a name fits into a cell. Case options are off; the name of a relationship in the original workbook is not looked at (C49)."
  },
  {
   "property": "C116",
   "status": "proved",
   "theorems": [
    "C116_settles",
    "C116_together_refuted",
    "C116_camel_refuted"
   ],
   "note": "C116_settles. C116_together_refuted and C116_camel_refuted show what happens without the conditions: tables T and t with --lowercase, a name with two underscores with camel case."
  },
  {
   "property": "C117",
   "status": "proved",
   "theorems": [
    "C117_runs",
    "C117_together_refuted"
   ],
   "note": "C117_runs. C117_together_refuted shows what happens without the condition on tables: Log and log with --lowercase."
  },
  {
   "property": "C118",
   "status": "proved",
   "theorems": [
    "C118_vouched",
    "C118_workbook",
    "C118_quote_refuted"
   ],
   "note": "C118_vouched for DDL files, C118_workbook for workbooks (whose names must be free of double quotes and whose constraints must stay in one schema). C118_quote_refuted shows the need for the condition on column names."
  },
  {
   "property": "C119",
   "status": "proved",
   "theorems": [
    "C119_replaces",
    "C119_created"
   ],
   "note": "C119_replaces and C119_created."
  },
  {
   "property": "C120",
   "status": "proved",
   "theorems": [
    "C120_undo"
   ],
   "note": "C120_undo, under the conditions the statement names (without them the scripts fail or are incomplete: C27, C33, C95)."
  },
  {
   "property": "C121",
   "status": "proved",
   "theorems": [
    "C121_parse",
    "C121_no_file",
    "C121_kept",
    "C121_same"
   ],
   "note": "C121_parse, C121_no_file, C121_kept; C121_same ties this model to that of the other properties. Files that cannot be read to their end are in C109."
  },
  {
   "property": "C122",
   "status": "partial",
   "theorems": [
    "C122_exact",
    "C122_refuted"
   ],
   "note": "C122_exact gives the exact sentence for each kind of fault and proves that the messages of a table are those about its faults and no others, table by table. As stated it is false (C122_refuted): the message about a relationship to a missing table says None, the one about a relationship of another table names its own table, and the one about a text column that is joined to another type gives the name of the other column twice."
  },
  {
   "property": "C123",
   "status": "partial",
   "theorems": [
    "C123_convert",
    "C123_diff",
    "C123_done",
    "C123_exact",
    "C123_rejected_refuted",
    "C123_missing_refuted",
    "C123_invalid_refuted",
    "C123_differences_refuted",
    "C123_alter1",
    "C123_review",
    "C123_review_exact",
    "C123_review_rejected_refuted"
   ],
   "note": "C123_convert, C123_diff and C123_review say when the status is 0, 1 and 2 for every command line. C123_done: if the arguments are accepted, the input is of the right kind and there is something to do, status 0 means it is done, whatever can fail; C123_exact is the converse where nothing fails. C123_review_exact: review_model returns 0 exactly if the reviews end, whatever they find. As stated it is false: rejected arguments give 0 (C123_rejected_refuted, C123_review_rejected_refuted), a missing input file gives 0 if no output is named (C123_missing_refuted), a model that does not pass --validate gives 0 (C123_invalid_refuted), and ddldiff gives 0 for databases that differ (C123_differences_refuted)."
  },
  {
   "property": "C124",
   "status": "proved",
   "theorems": [
    "C124_exact",
    "C124_same",
    "C124_message",
    "C124_stopped",
    "C124_file",
    "C124_convert",
    "C124_review"
   ],
   "note": "C124_exact gives the whole log of a text, C124_message and C124_stopped say which statement a message or an exception is about, C124_same that the messages and the result are those of the parse without --debug, C124_file the same for reading a file, and C124_convert and C124_review for the whole of convert_ddl and review_model. Lines that openpyxl, paramiko or other libraries log themselves are not modelled."
  },
  {
   "property": "C125",
   "status": "partial",
   "theorems": [
    "C125_refuted",
    "C125_called"
   ],
   "note": "False: C125_refuted shows that no result of a review contains such a recommendation, whatever the database, the tests selected, the connection, the worksheet and the configuration; the body of the review is a TODO. C125_called: the review is called nevertheless. C125_case is a model with a relationship of the kind described."
  },
  {
   "property": "C126",
   "status": "partial",
   "theorems": [
    "C126_partial",
    "C126_refuted"
   ],
   "note": "C126_partial: tests that exist are run or said to be skipped, in every review that ends. False for all other names (C126_refuted): they are passed over without a message and the result is the same as for a model without faults. The name review_many_to_many_relationships, which README lists, is one of them (C126_case)."
  }
 ]
}