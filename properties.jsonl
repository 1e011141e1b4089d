{"id": "C01", "title": "Column type admission", "statement": "Column(name, type) succeeds exactly when type is one of the eleven published ThoughtSpot types or begins with VARCHAR; on success the object carries exactly that name and that type, otherwise ValueError is raised.", "quantifier": "every name and every type string", "why_tests_cant": "the rejected types are an infinite set; a test samples a few", "anchors": ["dt/model.py:Column.__init__", "dt/model.py:Column.VALID_TYPES"]}
{"id": "C02", "title": "Foreign keys always pair their columns", "statement": "Whatever mixture of add_foreign_key calls (with a ForeignKey object or with its parts) a program makes on a table, every foreign key the table then holds has as many from columns as to columns, and every rejected call leaves the table as it was.", "quantifier": "every history of add_foreign_key calls", "why_tests_cant": "a history of arbitrary length has to preserve the pairing", "anchors": ["dt/model.py:ForeignKey.__init__", "dt/model.py:Table.add_foreign_key"]}
{"id": "C03", "title": "A table's columns are an insertion-ordered map", "statement": "After any sequence of add_column / add_columns / drop_column calls, get_column(n) is the last column added under n since it was last dropped, has_column and number_columns agree with it, no name occurs twice, a re-added live name keeps its place and a dropped name re-added goes to the end; iteration order is first-addition order.", "quantifier": "every history of column operations on a table", "why_tests_cant": "order and last-write-wins must hold for unbounded interleavings of add and drop", "anchors": ["dt/model.py:Table.add_column", "dt/model.py:Table.drop_column", "dt/model.py:Table.get_column", "dt/model.py:Table.__iter__"]}
{"id": "C04", "title": "Constraints are filed under their own names", "statement": "After any sequence of add_foreign_key / add_relationship calls, get_foreign_key(n) and get_relationship(n) return an object whose name is n, the last one added under that name; unnamed ones are called FK_<from>_to_<to> and REL_<from>_to_<to>.", "quantifier": "every history of constraint additions", "why_tests_cant": "depends on every earlier call, including overwriting ones", "anchors": ["dt/model.py:Table.add_foreign_key", "dt/model.py:Table.add_relationship", "dt/model.py:Table.get_foreign_key", "dt/model.py:Table.get_relationship"]}
{"id": "C05", "title": "A database is an insertion-ordered map of tables", "statement": "After any sequence of add_table / drop_table calls, get_table(n) is the last table added under the name n since that name was last dropped (None if there is none), each table is filed under its own name, number_tables counts the distinct live names, and drop_table returns exactly the table it removed and removes nothing else.", "quantifier": "every history of add_table and drop_table", "why_tests_cant": "unbounded histories with overwriting and re-adding", "anchors": ["dt/model.py:Database.add_table", "dt/model.py:Database.drop_table", "dt/model.py:Database.get_table", "dt/model.py:Database.number_tables"]}
{"id": "C06", "title": "Schema bookkeeping is safe and covers every table", "statement": "After any sequence of add_table / drop_table calls, drop_table never fails, every live table's schema is listed by get_schema_names, and the stored count of a schema is never below the number of live tables in it; if no table name is added while it is live, the listed schemas are exactly the schemas of the live tables.", "quantifier": "every history of add_table and drop_table", "why_tests_cant": "a reference-count invariant over unbounded histories", "anchors": ["dt/model.py:Database.add_table", "dt/model.py:Database.drop_table", "dt/model.py:Database.get_schema_names"]}
{"id": "C07", "title": "Schema bookkeeping has no leaks (any history)", "statement": "After any sequence of add_table / drop_table calls get_schema_names lists exactly the schemas of the live tables.", "quantifier": "every history of add_table and drop_table", "why_tests_cant": "only overwriting histories distinguish it", "anchors": ["dt/model.py:Database.add_table", "dt/model.py:Database.drop_table"]}
{"id": "C08", "title": "Validation verdict is sound and complete", "statement": "validate() reports is_valid exactly when: no column has type UNKNOWN; every primary-key column exists; every shard-key column exists and belongs to the primary key if there is one; every foreign key leads to an existing table, has as many columns as that table's primary key, pairs existing columns, its to columns lie in that primary key and paired types agree (any two VARCHARs agree); every generic relationship starts at its own table and leads to an existing table.", "quantifier": "every database", "why_tests_cant": "an equivalence over all databases; tests check one valid model and no invalid one", "anchors": ["dt/model.py:DatabaseValidator.validate", "dt/model.py:Database.validate"]}
{"id": "C09", "title": "Validation never fails and never invents levels", "statement": "validate() returns a result (no exception) for every database whose foreign keys pair their columns; is_valid is true exactly when the issue list is empty; a WARNING issue is produced exactly for UNKNOWN columns and every other issue is an ERROR naming the database and the table it is about.", "quantifier": "every database", "why_tests_cant": "must hold for every model, including broken ones", "anchors": ["dt/model.py:DatabaseValidator", "dt/model.py:ValidationResult"]}
{"id": "C10", "title": "A validated model has consistent foreign keys", "statement": "In every database that validates, the to columns of each foreign key enumerate the referenced table's whole primary key (each key column referenced once).", "quantifier": "every valid database", "why_tests_cant": "universally quantified over models", "anchors": ["dt/model.py:DatabaseValidator._validate_foreign_keys"]}
{"id": "C11", "title": "Relationship counts balance", "statement": "get_number_relationships_from_table and get_number_relationships_to_table raise ValueError exactly for unknown tables, and otherwise count the constraints leaving / reaching the table; summed over all tables of a database in which no constraint dangles, the two totals are equal.", "quantifier": "every database and table name", "why_tests_cant": "a global counting identity over all graphs", "anchors": ["dt/model.py:Database.get_number_relationships_from_table", "dt/model.py:Database.get_number_relationships_to_table"]}
{"id": "C12", "title": "Case conversion laws", "statement": "to_case leaves falcon_default_schema alone, prefers lowercase over uppercase over camelcase, keeps the length of the name under lower/upper, is idempotent under lower/upper, and is the identity when no option is set.", "quantifier": "every name and every option combination", "why_tests_cant": "all strings", "anchors": ["dt/generator.py:TQLCommandGenerator.to_case"]}
{"id": "C13", "title": "CamelCase conversion", "statement": "to_camel(v) raises IndexError exactly when v consists only of underscores (or is empty); otherwise, if v has no two adjacent inner underscores, the result is the underscore-separated words each with its first letter upper-cased, concatenated; the result then has no underscore and converting it again changes nothing.", "quantifier": "every string", "why_tests_cant": "all strings; index arithmetic", "anchors": ["dt/generator.py:TQLCommandGenerator.to_camel"]}
{"id": "C14", "title": "CamelCase conversion is idempotent (any name)", "statement": "to_camel(to_camel(v)) = to_camel(v) whenever to_camel(v) is defined.", "quantifier": "every string", "why_tests_cant": "only names with doubled underscores distinguish it", "anchors": ["dt/generator.py:TQLCommandGenerator.to_camel"]}
{"id": "C15", "title": "Comma lists survive a round trip", "statement": "For every non-empty list of names without commas and without surrounding white space, splitting the text produced by list_to_string at commas and stripping gives back the list; with quoting, each name is enclosed in double quotes and separated by comma-space.", "quantifier": "every list of names", "why_tests_cant": "lists of any length", "anchors": ["dt/generator.py:list_to_string", "dt/io.py:XLSReader._read_tables_from_workbook"]}
{"id": "C16", "title": "CREATE TABLE lists the table faithfully", "statement": "The CREATE TABLE statement is the header with the cased schema and table names, then one line per column in table order with the column's (cased) name in quotes and its type, separated by commas, then the primary key line if and only if there is a primary key, then the partition clause if and only if there is a shard key.", "quantifier": "every table and every case option", "why_tests_cant": "tables of any width", "anchors": ["dt/generator.py:TQLCommandGenerator.generate_create_table_statement"]}
{"id": "C17", "title": "Written scripts define before use", "statement": "In the script written by write_tql every table is dropped and created exactly once in database order, all of that before any foreign key, and all foreign keys before any relationship; with create_db the CREATE DATABASE precedes USE and every non-default schema is created before the tables.", "quantifier": "every database and option combination", "why_tests_cant": "an ordering property of scripts of any length", "anchors": ["dt/io.py:TQLWriter.write_tql"]}
{"id": "C18", "title": "Running the written script rebuilds the model", "statement": "Executing the statements of the written script on an empty TQL catalog that rejects undefined tables, duplicate tables and undefined schemas succeeds (ignoring the initial DROPs of absent tables) and yields exactly the model's tables, columns, keys, foreign keys and relationships, provided the model validates, uses one schema and no case option is set.", "quantifier": "every such database", "why_tests_cant": "a simulation over the whole script", "anchors": ["dt/io.py:TQLWriter.write_tql", "dt/generator.py:TQLCommandGenerator"]}
{"id": "C19", "title": "Case options keep keys and columns consistent", "statement": "With a case option set, every column named in a PRIMARY KEY, PARTITION or FOREIGN KEY clause of the script is a column of the CREATE TABLE it refers to whenever that is so in the model.", "quantifier": "every database and case option", "why_tests_cant": "all models", "anchors": ["dt/generator.py:TQLCommandGenerator.generate_create_table_statement", "dt/generator.py:TQLCommandGenerator.generate_foreign_key_statement"]}
{"id": "C20", "title": "Foreign keys of a valid model point at created tables", "statement": "Every table a FOREIGN KEY or RELATIONSHIP statement of the script references (schema and name) is created by that script, for every valid database.", "quantifier": "every valid database", "why_tests_cant": "all models, including ones spread over several schemas", "anchors": ["dt/generator.py:TQLCommandGenerator.generate_foreign_key_statement", "dt/generator.py:TQLCommandGenerator.generate_relationships"]}
{"id": "C21", "title": "Output files are closed and hold a prefix on failure", "statement": "write_tql and write_alters write to the named file (or stdout when the name is missing, empty or '-'); whatever statement fails, the file is closed exactly once, stdout is never closed, and what was written is exactly the concatenation of the texts before the failing one.", "quantifier": "every database / difference list, every failure point", "why_tests_cant": "every crash point of an unbounded sequence", "anchors": ["dt/io.py:smart_open", "dt/io.py:TQLWriter.write_tql", "dt/diff.py:TQLAlterWriter.write_alters"]}
{"id": "C22", "title": "Differences name exactly the tables that differ", "statement": "compare_databases reports TableCreated for db1 (TableDropped for db2) exactly for the names only db2 has, TableDropped for db1 (TableCreated for db2) exactly for the names only db1 has, each once, carrying the right table, and compares the remaining names pairwise.", "quantifier": "every pair of databases", "why_tests_cant": "a merge over two arbitrary sorted sequences", "anchors": ["dt/diff.py:DDLCompare.compare_databases"]}
{"id": "C23", "title": "Column differences are exact", "statement": "For two tables compared, ColumnAdded / ColumnDropped / ColumnModified are reported exactly for the columns only in the other, only in this one, and in both with another type, each once, carrying the other side's column when added or modified.", "quantifier": "every pair of tables", "why_tests_cant": "arbitrary column sets", "anchors": ["dt/diff.py:DDLCompare._compare_columns"]}
{"id": "C24", "title": "Primary key differences are exact", "statement": "A primary-key difference is reported exactly when the two key lists differ (order included), as a drop of the own key if there is one followed by an add of the other's key if there is one.", "quantifier": "every pair of tables", "why_tests_cant": "all key lists", "anchors": ["dt/diff.py:DDLCompare._compare_primary_keys"]}
{"id": "C25", "title": "Relationship differences are exact", "statement": "GenericRelationship differences are reported exactly for names on one side only and for names on both sides with different contents (as drop then add), each once.", "quantifier": "every pair of tables", "why_tests_cant": "arbitrary relationship sets", "anchors": ["dt/diff.py:DDLCompare._compare_relationships"]}
{"id": "C26", "title": "Foreign key differences by name are exact", "statement": "ForeignKey added/dropped differences are reported exactly for names on one side only; for a name on both sides a drop/add pair is reported exactly when names or tables differ or the first key's own from and to columns are not the same multiset.", "quantifier": "every pair of tables", "why_tests_cant": "arbitrary foreign key sets", "anchors": ["dt/diff.py:DDLCompare._compare_foreign_keys", "dt/model.py:ForeignKey.__eq__"]}
{"id": "C27", "title": "Foreign key equality is content equality", "statement": "Two foreign keys compare equal exactly when name, tables and column pairs are equal.", "quantifier": "every pair of foreign keys", "why_tests_cant": "all key lists", "anchors": ["dt/model.py:ForeignKey.__eq__"]}
{"id": "C28", "title": "Shard key differences are content differences", "statement": "A shard-key difference is reported exactly when the two tables' shard keys differ in columns or number of shards.", "quantifier": "every pair of tables", "why_tests_cant": "all shard keys, equal ones included", "anchors": ["dt/diff.py:DDLCompare._compare_shard_keys", "dt/model.py:ShardKey"]}
{"id": "C29", "title": "Comparison is mirror-symmetric", "statement": "compare_databases(b, a) is compare_databases(a, b) with the two difference lists swapped, whenever the foreign keys of equal name on both sides agree about their own from/to columns being the same multiset; unrestricted symmetry is false.", "quantifier": "every pair of databases", "why_tests_cant": "all pairs", "anchors": ["dt/diff.py:DDLCompare.compare_databases"]}
{"id": "C30", "title": "A database does not differ from itself", "statement": "compare_databases(db, db) is empty on both sides exactly when every foreign key has the same multiset of from and to column names.", "quantifier": "every database", "why_tests_cant": "all databases", "anchors": ["dt/diff.py:DDLCompare.compare_databases", "dt/model.py:ForeignKey.__eq__"]}
{"id": "C31", "title": "No reported difference means same model", "statement": "If compare_databases(a, b) reports nothing for one side it reports nothing for the other, and both databases have the same table names, column names and types, primary keys, relationships and foreign key names and tables.", "quantifier": "every pair of databases", "why_tests_cant": "the converse direction of a test's assertion", "anchors": ["dt/diff.py:DDLCompare.compare_databases"]}
{"id": "C32", "title": "Applying the differences turns one model into the other", "statement": "Applying the differences reported for db1, in order, to db1 gives a database with db2's tables, columns (by name and type), primary keys, shard keys and relationships, and db2's foreign keys, provided tables only in db2 carry no constraints, and foreign keys of equal name are equal or detected as different.", "quantifier": "every pair of databases", "why_tests_cant": "a simulation argument over all pairs", "anchors": ["dt/diff.py:DDLCompare.compare_databases", "dt/diff.py:TQLAlterWriter"]}
{"id": "C33", "title": "New tables arrive complete", "statement": "The ALTER script for db1 also creates the foreign keys and relationships of the tables that only db2 has.", "quantifier": "every pair of databases", "why_tests_cant": "all pairs", "anchors": ["dt/diff.py:TableCreatedDifference.get_alter"]}
{"id": "C34", "title": "Every difference has an ALTER statement", "statement": "get_alter returns a statement for every reported difference.", "quantifier": "every reported difference", "why_tests_cant": "all difference kinds reachable from a comparison", "anchors": ["dt/diff.py:PrimaryKeyAddedDifference.get_alter", "dt/generator.py:TQLCommandGenerator.generate_add_primary_key_statement"]}
{"id": "C35", "title": "ALTER statements address the reported object", "statement": "Each generated ALTER / DROP / CREATE statement quotes the difference's schema and table, and carries the name (and type, columns, condition) of the object the difference is about; two differences with quote-free names that give the same text are the same change, unless one drops a foreign key and the other a relationship of the same table and name.", "quantifier": "every difference", "why_tests_cant": "all names", "anchors": ["dt/diff.py:DatabaseDifference.get_alter", "dt/generator.py:TQLCommandGenerator"]}
{"id": "C36", "title": "Statement splitting loses nothing up to the last terminator", "statement": "Reading a DDL text, the statements delivered, rejoined with semicolons and followed by the unconsumed buffer, are exactly the cleaned lines in order (lines beginning with GO excepted) when the text has no block comments; at most one statement is delivered per line.", "quantifier": "every text", "why_tests_cant": "texts of any length", "anchors": ["dt/io.py:DDLParser._get_statements", "dt/io.py:DDLParser._clean_line"]}
{"id": "C37", "title": "All statements of a file are delivered", "statement": "Every semicolon-terminated statement of a file is delivered.", "quantifier": "every text", "why_tests_cant": "only texts with several statements on a line distinguish it", "anchors": ["dt/io.py:DDLParser._get_statements"]}
{"id": "C38", "title": "Delivered statements are clean", "statement": "Every delivered statement is free of semicolons and newlines, has no leading or trailing white space and no two adjacent spaces; text after -- on a line and text between /* and */ never reaches a statement unless a line holds a second comment.", "quantifier": "every text", "why_tests_cant": "all texts", "anchors": ["dt/io.py:DDLParser._get_statements"]}
{"id": "C39", "title": "Type conversion always gives a usable type", "statement": "_convert_type of any type text either gives one of nine types that Column accepts, or raises ValueError, and the latter only for a NUMBER(p,s) form with a malformed precision or too many commas.", "quantifier": "every type text", "why_tests_cant": "all strings", "anchors": ["dt/io.py:DDLParser._convert_type"]}
{"id": "C40", "title": "Type conversion stabilises", "statement": "Converting a converted type a second time changes INT to BIGINT and nothing else; from the second conversion on the result is stable.", "quantifier": "every type text", "why_tests_cant": "all strings", "anchors": ["dt/io.py:DDLParser._convert_type"]}
{"id": "C41", "title": "Field splitting respects parentheses", "statement": "Splitting a column list at its top-level commas loses no character, never splits inside a parenthesised group, and splits at every comma outside one.", "quantifier": "every column list text", "why_tests_cant": "all strings", "anchors": ["dt/io.py:DDLParser._add_columns"]}
{"id": "C42", "title": "Parsed names are free of quoting", "statement": "Table names obtained from any statement contain no single, double or back quote (CREATE) and no quote, bracket, tab or dot (ALTER); key column names likewise.", "quantifier": "every statement", "why_tests_cant": "all strings", "anchors": ["dt/io.py:DDLParser._get_table_name", "dt/io.py:DDLParser._clean_name", "dt/io.py:DDLParser._extract_table_name"]}
{"id": "C43", "title": "ALTER statements never break a parse", "statement": "Handling any ALTER TABLE statement never raises, never adds or removes a table and never changes any column; every other non-CREATE statement leaves the database unchanged.", "quantifier": "every statement and every database state", "why_tests_cant": "all statements, malformed ones included", "anchors": ["dt/io.py:DDLParser.parse_ddl", "dt/io.py:DDLParser._add_primary_key", "dt/io.py:DDLParser._add_foreign_key", "dt/io.py:DDLParser._add_generic_relationship"]}
{"id": "C44", "title": "Parsed databases are well formed", "statement": "Every database parse_ddl returns has tables under their own names, all in the parser's schema, foreign keys with paired columns filed under their own names, and column types Column accepts.", "quantifier": "every text", "why_tests_cant": "all inputs that parse", "anchors": ["dt/io.py:DDLParser.parse_ddl"]}
{"id": "C45", "title": "TQL written is read back", "statement": "Parsing the TQL written (no case option) for a model with plain identifiers gives back the same tables, columns in order, primary keys, shard keys, foreign keys and relationships, with types normalised by the type conversion and the parser's schema.", "quantifier": "every such database", "why_tests_cant": "a round trip over models of any size", "anchors": ["dt/io.py:TQLWriter.write_tql", "dt/io.py:DDLParser.parse_ddl"]}
{"id": "C46", "title": "Configuration files: what is loaded", "statement": "After loading any text, every loaded key and value is non-empty, trimmed and free of #, keys have no =; a later line for a key wins, other keys keep their previous value, and lines without both parts change nothing.", "quantifier": "every file text and prior configuration", "why_tests_cant": "all texts", "anchors": ["dt/util.py:ConfigFile.load_from_file"]}
{"id": "C47", "title": "Configuration files: write then load", "statement": "Writing a configuration whose keys and values are such clean strings and loading it into an empty configuration gives an equal configuration; in particular load, write, load is the same as load.", "quantifier": "every clean configuration", "why_tests_cant": "configurations of any size", "anchors": ["dt/util.py:ConfigFile.write_to_file", "dt/util.py:ConfigFile.load_from_file", "dt/util.py:ConfigFile.__eq__"]}
{"id": "C48", "title": "Excel round trip", "statement": "Reading the workbook written for a model gives one database of that name with the same tables in order, schemas, columns in order and types, primary keys, shard keys and foreign keys, provided names are trimmed, non-empty and comma free and constraints start at their own table.", "quantifier": "every such database with at least one table", "why_tests_cant": "models of any size", "anchors": ["dt/io.py:XLSWriter.write_database", "dt/io.py:XLSReader.read_xls"]}
{"id": "C49", "title": "Excel round trip keeps relationships", "statement": "Reading the workbook written for a model gives back every generic relationship with its name.", "quantifier": "every database", "why_tests_cant": "only named or parallel relationships distinguish it", "anchors": ["dt/io.py:XLSReader._read_relationships_from_workbook"]}
{"id": "C50", "title": "Excel reading ignores extra columns and column order", "statement": "Reading a workbook gives the same result whatever other columns are added and in whatever order the columns stand, as long as required headers occur once.", "quantifier": "every workbook", "why_tests_cant": "all column layouts", "anchors": ["dt/io.py:XLSReader._get_column_indices", "dt/io.py:XLSReader._verify_file_format"]}
{"id": "C51", "title": "Excel format check", "statement": "read_xls reads anything only if all four sheets and all required columns are present; otherwise it returns what the reader held before.", "quantifier": "every workbook", "why_tests_cant": "all layouts", "anchors": ["dt/io.py:XLSReader._verify_file_format", "dt/io.py:XLSReader.read_xls"]}
{"id": "C52", "title": "Excel reading survives dangling rows", "statement": "Rows of the Columns, Foreign Keys or Relationships sheet that mention an unknown database or table are reported and skipped without failing.", "quantifier": "every workbook", "why_tests_cant": "all workbooks", "anchors": ["dt/io.py:XLSReader._read_columns_from_workbook", "dt/io.py:XLSReader._read_foreign_keys_from_workbook", "dt/io.py:XLSReader._read_relationships_from_workbook"]}
{"id": "C53", "title": "Circular relationship review is exact", "statement": "For every database without dangling constraints review_circular_relationships terminates and reports exactly the tables that can reach themselves along foreign keys and relationships, each once, in table order.", "quantifier": "every relationship graph and every set iteration order", "why_tests_cant": "graph reachability on arbitrary graphs; termination of a while loop", "anchors": ["dt/review/review_tests.py:review_circular_relationships"]}
{"id": "C54", "title": "Long chain review is exact", "statement": "For every database without dangling constraints, review_long_chain_relationships terminates and reports exactly the simple relationship paths longer than the limit, each once.", "quantifier": "every relationship graph, limit and set iteration order", "why_tests_cant": "path enumeration on arbitrary graphs", "anchors": ["dt/review/review_tests.py:review_long_chain_relationships", "dt/review/review_tests.py:get_related_paths", "dt/review/review_tests.py:get_relationships"]}
{"id": "C55", "title": "Configured limits are honoured", "statement": "A limit set in the configuration file is used by the review in place of the default.", "quantifier": "every configuration file", "why_tests_cant": "the configuration path is not exercised", "anchors": ["dt/review/review_tests.py:review_long_chain_relationships", "dt/review/review_tests.py:review_sharding", "dt/util.py:ConfigFile.get"]}
{"id": "C56", "title": "relates_to_previous decides reachability", "statement": "On acyclic relationship maps relates_to_previous terminates and is true exactly when the second table is reachable from the first; on cyclic maps it need not terminate.", "quantifier": "every acyclic map", "why_tests_cant": "recursion on arbitrary graphs", "anchors": ["dt/review/review_tests.py:relates_to_previous"]}
{"id": "C57", "title": "Missing primary keys are all reported", "statement": "review_pks reports exactly the tables with an empty primary key, each once, in order.", "quantifier": "every database", "why_tests_cant": "all databases", "anchors": ["dt/review/review_tests.py:review_pks"]}
{"id": "C58", "title": "Sharding review classification", "statement": "review_sharding reports for the reviewed database's rows only: unsharded tables above the row limit, sharded tables below the minimum or above the maximum rows per shard (never both), and skew above the ratio; it fails exactly when some row of the database has zero shards.", "quantifier": "every statistics result", "why_tests_cant": "all integer combinations", "anchors": ["dt/review/review_tests.py:review_sharding"]}
{"id": "C59", "title": "Join cardinality verdicts", "statement": "Given truthful query answers, review_table_joins reports a join as 1:M exactly when some from row matches several to rows and no to row matches several from rows, as M:M when both happen, as returning no data when nothing matches, and reports nothing for 1:1 and M:1.", "quantifier": "every database content", "why_tests_cant": "all relations", "anchors": ["dt/review/review_tests.py:review_table_joins", "dt/review/review_tests.py:query_for_cardinality"]}
{"id": "C60", "title": "Join queries are well formed", "statement": "The join condition built for a foreign key has balanced parentheses that never go negative and mentions every column pair once, in order.", "quantifier": "every foreign key", "why_tests_cant": "keys of any width", "anchors": ["dt/review/review_tests.py:get_fk_join_parts"]}
{"id": "C61", "title": "Worksheet join verdicts", "statement": "review_worksheet_joins suggests INNER, LEFT_OUTER, RIGHT_OUTER or OUTER according to which of the two probes returns rows and reports a join exactly when its type differs; joins of unsupported kinds are skipped and do not stop the review.", "quantifier": "every worksheet and every query oracle", "why_tests_cant": "all combinations", "anchors": ["dt/review/review_tests.py:review_worksheet_joins"]}
{"id": "C62", "title": "Worksheet probes use the right columns", "statement": "Each probe's WHERE clause refers to a column of the table it names.", "quantifier": "every foreign key", "why_tests_cant": "only keys with different column names distinguish it", "anchors": ["dt/review/review_tests.py:review_worksheet_joins"]}
{"id": "C63", "title": "Reviewer runs exactly the applicable reviews", "statement": "review_model calls exactly the reviews that are selected and whose required rtql / worksheet are supplied, and returns exactly the non-empty results under the review's name.", "quantifier": "every selection and every review outcome", "why_tests_cant": "all subsets", "anchors": ["dt/review/review.py:DataModelReviewer.review_model"]}
{"id": "C64", "title": "Worksheet reading", "statement": "Reading a worksheet description keeps tables, joins, table paths, formulas and columns in document order with all of their fields, and get_path / get_source split a column id at the first ::.", "quantifier": "every worksheet document", "why_tests_cant": "documents of any size", "anchors": ["dt/io.py:YAMLWorksheetReader.create_worksheet", "dt/model.py:WorksheetColumn.get_path", "dt/model.py:WorksheetColumn.get_source"]}
{"id": "C65", "title": "Command line checks", "statement": "valid_args of the three tools accepts exactly the argument combinations its messages describe.", "quantifier": "every argument combination", "why_tests_cant": "finite but large; includes file existence", "anchors": ["ddltools/convert_ddl.py:valid_args", "ddltools/ddldiff.py:valid_args", "ddltools/review_model.py:valid_args"]}
{"id": "C66", "title": "Every client program yields a well-formed database", "statement": "Whatever sequence of calls is made on databases and on the tables they hold (adding and dropping tables and columns, keys, foreign keys, relationships, including calls that raise), the result has tables filed under their own names without duplicates, columns, foreign keys and relationships filed under their own names without duplicates, paired foreign key columns, and a schema list covering every table; the sequence fails only by using a table that is not there.", "quantifier": "every sequence of API calls of any length, interleaved over any number of tables", "why_tests_cant": "an invariant over all call histories", "anchors": ["dt/model.py:Table", "dt/model.py:Database", "dt/model.py:ForeignKey"]}
{"id": "C67", "title": "Type conversion ignores case and modifiers", "statement": "Type conversion gives the same result for any letter case, and text after the closing parenthesis (or after the blank that ends a type without parentheses) never changes the result.", "quantifier": "every type text and every trailing text", "why_tests_cant": "the type text is unbounded", "anchors": ["dt/io.py:DDLParser._convert_type"]}
{"id": "C68", "title": "NUMBER precision and scale", "statement": "NUMBER(p,s) converts to DOUBLE when s is not 0, to INT when s is 0 and p is at most 9, to BIGINT when s is 0 and p is larger; NUMBER(p) to INT, NUMBER and NUMBER(*,0) to BIGINT.", "quantifier": "every precision and scale", "why_tests_cant": "p and s are unbounded", "anchors": ["dt/io.py:DDLParser._convert_type"]}
{"id": "C69", "title": "What a parse can raise", "statement": "Parsing the text of a file raises nothing but IndexError or ValueError, and only when the text delivers a CREATE TABLE statement.", "quantifier": "every text", "why_tests_cant": "texts are unbounded", "anchors": ["dt/io.py:DDLParser.parse_ddl"]}
{"id": "C70", "title": "One round trip reaches a fixed point", "statement": "Writing a model with plain identifiers as TQL and parsing it normalises it once: writing the parsed model and parsing that text again gives exactly the same tables, columns and types, keys, foreign keys and relationships.", "quantifier": "every such database, database name and schema", "why_tests_cant": "stability of a composition over models of any size", "anchors": ["dt/io.py:TQLWriter.write_tql", "dt/io.py:DDLParser.parse_ddl", "dt/io.py:DDLParser._convert_type"]}
{"id": "C71", "title": "Reusing an Excel writer", "statement": "Writing a second database with the same Excel writer object produces a file holding that second database, as a fresh writer would.", "quantifier": "every pair of databases", "why_tests_cant": "histories of writes over unbounded models", "anchors": ["dt/io.py:XLSWriter.__init__", "dt/io.py:XLSWriter.write_database"]}
{"id": "C72", "title": "Excel file names", "statement": "The name of the file written ends in .xlsx: a name that already ends so is used as given, any other gets the suffix.", "quantifier": "every file name", "why_tests_cant": "file names are unbounded", "anchors": ["dt/io.py:XLSWriter.write_database"]}
{"id": "C73", "title": "CREATE OR REPLACE TABLE", "statement": "A CREATE OR REPLACE TABLE statement defines the same table as the CREATE TABLE statement with the same name and body.", "quantifier": "every table name and body", "why_tests_cant": "statements are unbounded", "anchors": ["dt/io.py:DDLParser._get_table_name", "dt/io.py:DDLParser._parse_create_table", "dt/io.py:DDLParser._add_hashkey"]}
{"id": "C74", "title": "CREATE replaces and does not look back", "statement": "The table a CREATE statement makes, or the exception it raises, does not depend on the statements before it; a table of that name already there is replaced with all its columns and constraints in its old place, and all others stay as they are.", "quantifier": "every statement and every database before it", "why_tests_cant": "histories of statements are unbounded", "anchors": ["dt/io.py:DDLParser._parse_create_table", "dt/model.py:Database.add_table"]}
{"id": "C75", "title": "Count formulas in the Tables sheet", "statement": "In the workbook written by a new Excel writer, the row of every table counts by formulas the rows of the Columns sheet with its database, schema and name, and the foreign keys and relationships from and to a table of its name; every formula refers to the columns with those headers and to its own row.", "quantifier": "every database", "why_tests_cant": "row numbers grow with the model", "anchors": ["dt/io.py:XLSWriter._write_tables_worksheet"]}
{"id": "C76", "title": "Keys in the Tables sheet", "statement": "A table read from Excel has the schema, primary key and shard key of the last row of the Tables sheet that describes it; it has a shard key exactly if that row gives both key columns and a number of shards other than zero, and exactly the rows with only one of the two are reported.", "quantifier": "every workbook in the expected format", "why_tests_cant": "workbooks have any number of rows, in any order", "anchors": ["dt/io.py:XLSReader._read_tables_from_workbook"]}
{"id": "C77", "title": "Test descriptions", "statement": "get_test_descriptions lists every review under its signature, with the lines of its documentation that are not blank and come before the first field (a line beginning with a colon), without surrounding blanks, and nothing else.", "quantifier": "every module of reviews and every documentation text", "why_tests_cant": "documentation of any length and layout", "anchors": ["dt/review/review.py:DataModelReviewer.get_test_descriptions"]}
{"id": "C78", "title": "Worksheet files are read as they are", "statement": "YAMLWorksheetReader.read_from_file interprets the text of the file: the worksheet is the one the file's own YAML describes.", "quantifier": "every worksheet file", "why_tests_cant": "the text is changed in a way that many layouts survive", "anchors": ["dt/io.py:YAMLWorksheetReader.read_from_file"]}
{"id": "C79", "title": "convert_ddl converts to every named place", "statement": "When convert_ddl finishes, the TQL file, the Excel file and the cluster that were named have received the model that was read (once each, the script and the workbook the writers produce for it), standard output and standard error hold exactly the announced steps, messages and responses, no temporary file is left, and no other file or cluster was touched.", "quantifier": "every accepted command line, every readable source, every initial file system and every cluster", "why_tests_cant": "combinations of options, sources and file contents are unbounded", "anchors": ["ddltools/convert_ddl.py:main", "ddltools/convert_ddl.py:read_ddl", "ddltools/convert_ddl.py:read_excel", "ddltools/convert_ddl.py:read_from_ts", "ddltools/convert_ddl.py:write_tql", "ddltools/convert_ddl.py:write_excel", "ddltools/convert_ddl.py:write_to_ts"]}
{"id": "C80", "title": "A failed read leaves the outputs alone", "statement": "When convert_ddl cannot read a model from its source, no output file is created or changed and nothing is sent to a cluster.", "quantifier": "every accepted command line and every source that cannot be read", "why_tests_cant": "ways to fail are unbounded", "anchors": ["ddltools/convert_ddl.py:main", "ddltools/convert_ddl.py:read_ddl", "dt/io.py:DDLParser.parse_ddl"]}
{"id": "C81", "title": "convert_ddl changes only the files it is told to", "statement": "Whatever happens, also when it raises, convert_ddl changes no file other than those named by --to_tql and --to_excel, and temporary files (with the suffix .tmp) when a cluster is involved; a file it reads is only changed when it is also named as an output.", "quantifier": "every command line, every file system, every failure of the host", "why_tests_cant": "failure points and file systems are unbounded", "anchors": ["ddltools/convert_ddl.py:main"]}
{"id": "C82", "title": "Temporary files", "statement": "convert_ddl removes the temporary file it writes, and loses no file that was there before.", "quantifier": "every conversion that reads from or writes to a cluster", "why_tests_cant": "depends on names and failures", "anchors": ["ddltools/convert_ddl.py:write_to_ts", "ddltools/convert_ddl.py:read_from_ts"]}
{"id": "C84", "title": "--schema is the default schema of what is read", "statement": "Every table of a model that convert_ddl reads without a schema of its own gets the schema of --schema.", "quantifier": "every command line and source", "why_tests_cant": "models are unbounded", "anchors": ["ddltools/convert_ddl.py:read_ddl", "ddltools/convert_ddl.py:read_from_ts"]}
{"id": "C85", "title": "Passwords stay private", "statement": "convert_ddl does not show the password on standard output.", "quantifier": "every accepted command line", "why_tests_cant": "must hold on every path", "anchors": ["ddltools/convert_ddl.py:main"]}
{"id": "C86", "title": "--validate only reports", "statement": "With --validate the files written and the commands sent are the same as without it, for valid and for invalid models; the only difference is the announcement and the issues on standard error.", "quantifier": "every conversion", "why_tests_cant": "relates two executions on every model", "anchors": ["ddltools/convert_ddl.py:main", "dt/io.py"]}
{"id": "C87", "title": "ddldiff prints the differences", "statement": "ddldiff prints the differences between the models of the two files, or the ALTER statements for them, and nothing is reported exactly when the models look the same; a file compared with itself shows no difference.", "quantifier": "every two DDL files that are read", "why_tests_cant": "files are unbounded", "anchors": ["ddltools/ddldiff.py:main"]}
{"id": "C88", "title": "--ignore_case", "statement": "With --ignore_case ddldiff takes names that differ only in case as the same.", "quantifier": "every two DDL files", "why_tests_cant": "files are unbounded", "anchors": ["ddltools/ddldiff.py:parse_args", "ddltools/ddldiff.py:main"]}
{"id": "C89", "title": "review_model honours its configuration file", "statement": "The limits in the file given by --config_file are those the reviews use.", "quantifier": "every command line, model and configuration", "why_tests_cant": "configurations and models are unbounded", "anchors": ["ddltools/review_model.py:main", "dt/review/review.py:DataModelReviewer.__init__"]}
{"id": "C90", "title": "What review_model prints", "statement": "After the arguments (and the test descriptions, if asked for) review_model prints the lines of the reviews as they run and then the findings of the reviews, under their names, for the model and the worksheet it was given; a review that raises ends the run with that exception; no file but the temporary file of a cluster is touched. The messages of the parser and of the reviews go to standard error, and the queries to the cluster.", "quantifier": "every accepted command line, every model, worksheet and cluster", "why_tests_cant": "models, findings and answers are unbounded", "anchors": ["ddltools/review_model.py:main", "ddltools/review_model.py:read_from_ts", "dt/review/review.py:DataModelReviewer.review_model"]}
{"id": "C91", "title": "The detour through Excel changes nothing", "statement": "Converting a DDL file to an Excel workbook, and that workbook to TQL, leaves the same TQL file as converting the DDL file to TQL at once, with the same options.", "quantifier": "every readable DDL file, file names and TQL options", "why_tests_cant": "files and models are unbounded, and the property composes two programs through a file", "anchors": ["ddltools/convert_ddl.py:main", "dt/io.py:XLSWriter", "dt/io.py:XLSReader", "dt/io.py:TQLWriter"]}
{"id": "C92", "title": "A file and its own conversion are the same to ddldiff", "statement": "ddldiff reports no difference between a DDL file and the TQL file convert_ddl makes of it without options that change names.", "quantifier": "every readable DDL file with plain names and all file names", "why_tests_cant": "files and models are unbounded, and the property composes two programs through a file", "anchors": ["ddltools/convert_ddl.py:main", "ddltools/ddldiff.py:main", "dt/io.py:DDLParser._convert_type", "dt/diff.py:DDLCompare.compare_databases"]}
{"id": "C93", "title": "The join review survives any server", "statement": "Whatever the server answers or raises, review_table_joins asks exactly two count queries for every join in order, finishes without an exception, and says of a join that no data was returned exactly when one of the two answers is not a readable positive count.", "quantifier": "every server (any answer or exception to any query, depending on all earlier ones) and every model whose references exist", "why_tests_cant": "the answers of a server and the models are unbounded; a test fixes a few answers", "anchors": ["dt/review/review_tests.py:review_table_joins", "dt/review/review_tests.py:query_for_cardinality"]}
{"id": "C94", "title": "The case options of convert_ddl", "statement": "With --lowercase, --uppercase or --camelcase convert_ddl writes a TQL file whose statements are those of the model with database, schema and table names (except falcon_default_schema) and the columns of CREATE TABLE converted as the option says; lowercase wins over uppercase and uppercase over camel case; camel case leaves columns alone.", "quantifier": "every source, model with quotable names and combination of the options", "why_tests_cant": "models, names and combinations are unbounded, and the effect is only visible through the written file", "anchors": ["ddltools/convert_ddl.py:write_tql", "ddltools/convert_ddl.py:main", "dt/generator.py:TQLCommandGenerator.to_case", "dt/generator.py:TQLCommandGenerator.generate_create_table_statement"]}
{"id": "C95", "title": "Running the ALTER script turns a database of model 1 into one of model 2", "statement": "Running the statements that ddldiff writes for the differences of model 1 (in the order written) on a ThoughtSpot database that holds model 1 succeeds, and the database then holds model 2: the same tables, with the same columns, types, primary keys, shard keys, foreign keys and relationships; the database's name and schemas stay.", "quantifier": "every two well-formed models in one schema, every database holding the first", "why_tests_cant": "models are unbounded, and whether each statement is possible depends on the effect of all the statements before it", "anchors": ["dt/diff.py:DDLCompare.compare_databases", "dt/diff.py:DatabaseDifference.get_alter", "dt/diff.py:TQLAlterWriter", "dt/generator.py:TQLCommandGenerator"]}
{"id": "C96", "title": "No key or relationship statement is lost without a message", "statement": "Every ALTER TABLE statement about a primary key, foreign key, relationship or shard key that parse_ddl meets either takes its effect on the model, or is reported with a message naming the construct and the statement or the missing table, and then changes nothing (of several constraints in one statement those before the first bad one are kept); likewise a CREATE TABLE with PARTITION BY HASH whose shard key cannot be read. The messages do not change what is read, a file without messages had every statement handled, and the scripts that TQLWriter writes are read without a message.", "quantifier": "every text, every statement at any point of it, every database built so far", "why_tests_cant": "the statements are arbitrary texts and their effect depends on the tables read before", "anchors": ["dt/io.py:DDLParser.parse_ddl", "dt/io.py:DDLParser._add_primary_key", "dt/io.py:DDLParser._add_foreign_key", "dt/io.py:DDLParser._add_generic_relationship", "dt/io.py:DDLParser._add_shard_key", "dt/io.py:DDLParser._add_hashkey"]}
{"id": "C97", "title": "The lines ddldiff reports", "statement": "The list of differences for either database contains, for every table, exactly one line per object concerned: 'Table Created' or 'Table Dropped' for a table only one side has; for a table of both, one 'Column Added / Dropped / Modified' line per such column, 'Primary Key', 'Hash Key', 'Foreign Key' and 'Generic Relationship' lines likewise; each line names the database, schema and table and the number and words of its kind, and there are no other lines. ddldiff without --alter1 and --alter2 prints just these lines for the models of its two files.", "quantifier": "every two well-formed databases with schema names without dots; every two files ddldiff reads; every table name and kind of difference", "why_tests_cant": "the lists depend on all names of two unbounded models, and 'no other line' speaks about every text", "anchors": ["dt/diff.py:DatabaseDifference.__repr__", "dt/diff.py:DatabaseDifference.DIFFERENCE_DESCRIPTION", "dt/diff.py:DDLCompare.compare_databases", "ddltools/ddldiff.py:main"]}
{"id": "C98", "title": "Create, compare, alter: the database ends up as the second file says", "statement": "A database created by running the TQL that convert_ddl --create_db makes of a first DDL file, and then altered by running the statements that ddldiff --alter1 prints for the first and a second file, holds exactly the tables, columns, keys, shard keys, foreign keys and relationships of the second file.", "quantifier": "every pair of readable DDL files, database and schema name, file names, and catalogs without a database of that name", "why_tests_cant": "files and models are unbounded, and the property composes two programs and the execution of two scripts", "anchors": ["ddltools/convert_ddl.py:main", "ddltools/ddldiff.py:main", "dt/diff.py:DDLCompare.compare_databases", "dt/diff.py:TQLAlterWriter.write_alters", "dt/io.py:TQLWriter.write_tql"]}
{"id": "C99", "title": "CREATE TABLE statements of other databases are read as they say", "statement": "A CREATE TABLE statement as other databases write it (names bare or in double quotes, single quotes, back quotes or brackets, a database and schema before the table's name, types in quotes or brackets with arguments or without, NOT NULL, DEFAULT and similar words after a type, a named PRIMARY KEY clause anywhere, other key clauses, text after the closing parenthesis) gives a table of that name with exactly the declared columns, in order, with the ThoughtSpot types that correspond to theirs, and the declared primary key.", "quantifier": "every statement of this form: any number of columns and clauses, names, quoting styles, spacing, types, arguments and trailing words", "why_tests_cant": "the statements are unbounded, and the parser finds names, types and keys by searching for substrings anywhere in them", "anchors": ["dt/io.py:DDLParser._parse_create_table", "dt/io.py:DDLParser._get_table_name", "dt/io.py:DDLParser._add_columns", "dt/io.py:DDLParser._convert_type"]}
{"id": "C100", "title": "The layout of a DDL file does not matter", "statement": "Two DDL files whose statements consist of the same words give the same model and the same messages, however the words are spread over lines and separated by blanks, tabs and newlines, wherever comments after a double dash and GO lines stand, and whether lines end with LF, CR or CR LF; a statement is read as its words separated by single blanks.", "quantifier": "every pair of texts with the same words, over all line breaks, white space, comments, blank lines and newline conventions", "why_tests_cant": "one list of statements has infinitely many layouts, and cleaning, comment removal and splitting interact across lines", "anchors": ["dt/io.py:DDLParser._get_statements", "dt/io.py:DDLParser._clean_line", "dt/io.py:DDLParser._should_ignore_line", "dt/io.py:DDLParser.parse_ddl"]}
{"id": "C101", "title": "ALTER TABLE statements of other databases are read as declared", "statement": "An ALTER TABLE statement as other databases write it (a possibly qualified and quoted table name, constraint names, words such as CLUSTERED, quoted key columns with ASC or DESC, trailing options) gives the named table the declared primary key, the declared foreign keys or the declared generic relationship, and changes nothing else.", "quantifier": "every statement of this form: any quoting style, qualifying path, number of columns and references, names, words between the parts and trailing text, and every database it is applied to", "why_tests_cant": "the statements are unbounded, and the parser finds the parts by matching greedy patterns anywhere in them", "anchors": ["dt/io.py:DDLParser.parse_ddl", "dt/io.py:DDLParser._add_primary_key", "dt/io.py:DDLParser._add_foreign_key", "dt/io.py:DDLParser._add_generic_relationship", "dt/io.py:DDLParser._extract_table_name", "dt/io.py:DDLParser._extract_name"]}
{"id": "C102", "title": "The command line means what it says", "statement": "A command line of convert_ddl, ddldiff or review_model is accepted exactly if it is a sequence of the declared options, each with its text where it takes one; then the tool runs with the last text given for each option, or its default, whatever the order of the options. Any other command line prints the help or a reason and neither writes files nor sends commands. The commands the README shows are accepted and mean what it says.", "quantifier": "every list of words, every order, abbreviation, combination of letters and text; every state of the files and the cluster", "why_tests_cant": "command lines are unbounded, and the readings of a word (abbreviation, letters in one word, attached text, negative number, words with blanks) interact with all declared options", "anchors": ["ddltools/convert_ddl.py:parse_args", "ddltools/ddldiff.py:parse_args", "ddltools/review_model.py:get_parser"]}
{"id": "C103", "title": "Silence on standard error means no statement was lost", "statement": "Whatever happens afterwards, what the parser has to say about the DDL file a tool reads is the first thing on standard error. If a tool ends normally and has added nothing to standard error, then every statement the reader finds in the file (see C37 and C100) took effect at its turn: each primary key was set, each relationship added, as many foreign keys added as the statement has constraints, and each created table has a shard key exactly if the statement asks for one. A statement that did not take effect is shown in a line of standard error, or the missing table is.", "quantifier": "every DDL file, every place of a statement in it, every option of the tools, every failure of files, cluster and reviews", "why_tests_cant": "scripts and the positions of faulty statements in them are unbounded; the messages must survive every later failure", "anchors": ["dt/io.py:DDLParser.parse_ddl", "dt/io.py:DDLParser._parse_create_table", "dt/io.py:DDLParser._add_primary_key", "dt/io.py:DDLParser._add_foreign_key", "dt/io.py:DDLParser._add_generic_relationship", "ddltools/convert_ddl.py:main", "ddltools/ddldiff.py:main", "ddltools/review_model.py:main"]}
{"id": "C104", "title": "What the reviews say while they run", "statement": "What the reviews print does not change their findings or queries. Every query sent to the cluster, except the one for statistics, is a line on standard output, in the order of sending. Every join of the model is announced by name and tables before its two queries; a query whose answer holds no count is followed by the reason on standard error. Every join of a worksheet is either asked about by two queries that are shown, or the table or the join that cannot be reviewed is named on standard error. Without a connection the output is exactly four progress lines, three lines for skipped reviews and the findings.", "quantifier": "every model, worksheet, configuration, choice of reviews, every history of queries and every answer or failure of the cluster", "why_tests_cant": "models, worksheets and answers are unbounded, and an answer may depend on all queries before it", "anchors": ["dt/review/review.py:DataModelReviewer.review_model", "dt/review/review_tests.py:review_table_joins", "dt/review/review_tests.py:review_worksheet_joins", "dt/review/review_tests.py:review_sharding", "ddltools/review_model.py:main"]}
{"id": "C105", "title": "Reviewing only reads, and the texts of a model come from its script", "statement": "Every character of a table, column, key, relationship or condition of the model that is read from a script occurs in the script, the given names, or a fixed few characters (made-up names FK_..._to_... and REL_..._to_..., double quotes for brackets, blanks for line ends), and none is a semicolon, line end or tab unless a given name has one. So with a database name without a semicolon every statement that review_model sends, whatever the script, the worksheet, the options, the answers and the failures, goes to the given address with the given credentials and is either the one that scripts the database or a single statement that reads: the one for statistics or one SELECT with no semicolon inside; without an address nothing is sent.", "quantifier": "every script, worksheet, choice of options, file system, and every answer or failure of the cluster", "why_tests_cant": "scripts, names and worksheets are unbounded, and a statement hidden in a name would only show for inputs no one tried", "anchors": ["ddltools/review_model.py:main", "ddltools/review_model.py:read_from_ts", "dt/io.py:DDLParser.parse_ddl", "dt/review/review_tests.py:review_table_joins", "dt/review/review_tests.py:review_worksheet_joins", "dt/review/review_tests.py:review_sharding"]}
{"id": "C106", "title": "What convert_ddl says about a workbook, and silence means no row was lost", "statement": "What reading a workbook prints are the first lines on standard error, whatever happens afterwards, also when reading fails. For a workbook with every required column once that is read to its end these are exactly one kind of line for every row of the sheet Tables with half a shard key, for every row of the other sheets about a database the sheet Tables does not name, and for every row about a table it does not name, with that sheet and name; for a workbook without the required sheets or columns exactly the missing ones are named and then that no database was read. A relationship from a table that is not known ends the tool, and the line about it is the last one. So if convert_ddl ends normally without a line on standard error, the workbook had the required format and exactly one database, and every row of its other sheets is about a table that the sheet Tables names.", "quantifier": "every workbook, every choice of options, file system, and every answer or failure of outputs and clusters", "why_tests_cant": "workbooks are unbounded, and a lost row without a message would only show for sheets no one tried", "anchors": ["dt/io.py:XLSReader._verify_file_format", "dt/io.py:XLSReader._read_tables_from_workbook", "dt/io.py:XLSReader._read_columns_from_workbook", "dt/io.py:XLSReader._read_foreign_keys_from_workbook", "dt/io.py:XLSReader._read_relationships_from_workbook", "ddltools/convert_ddl.py:read_excel", "ddltools/convert_ddl.py:main"]}
{"id": "C107", "title": "What a workbook says is what is read", "statement": "From a workbook with every required column once, in whatever order its sheets, columns and rows are, exactly the databases, tables, columns, foreign keys and relationships are read that its rows describe: each row of the sheets Columns, Foreign Keys and Relationships belongs to the table and database it names; when several rows are about the same name the last one counts; names come in the order of their first rows. Names in key cells are separated at commas, without the blanks around them; relationships are named after their tables. With texts where texts belong the workbook is read unless a column of a described table has an unknown type, a foreign key of one has not as many columns on either side, or a relationship in a described database is about a table that is not described.", "quantifier": "every workbook: any number of sheets, columns and rows in any order, with any texts in their cells", "why_tests_cant": "there are unboundedly many workbooks, and a row that lands in another table or is overwritten shows only for certain combinations of names", "anchors": ["dt/io.py:XLSReader.read_xls", "dt/io.py:XLSReader._read_tables_from_workbook", "dt/io.py:XLSReader._read_columns_from_workbook", "dt/io.py:XLSReader._read_foreign_keys_from_workbook", "dt/io.py:XLSReader._read_relationships_from_workbook", "dt/model.py:Table.add_column", "dt/model.py:Table.add_foreign_key", "dt/model.py:Table.add_relationship"]}
{"id": "C108", "title": "Using an Excel reader again", "statement": "What an Excel reader returns for a workbook depends only on the workbook. (False: the reader keeps what it has read. A workbook that lacks a required sheet or column yields the databases of the workbooks read before. From a complete one, the tables it describes are read from it alone; all others that were held stay, with their schema and keys, and rows about them are added to what they had; databases and tables held before come first.)", "quantifier": "every sequence of workbooks read with one reader, and every workbook read after them", "why_tests_cant": "what a reader holds depends on an unbounded history of workbooks, and mixing shows only where names of one workbook occur in another", "anchors": ["dt/io.py:XLSReader.__init__", "dt/io.py:XLSReader.read_xls", "dt/io.py:XLSReader._read_databases_from_workbook"]}
{"id": "C109", "title": "A DDL file that cannot be read to its end", "statement": "A DDL file is either parsed in full or refused. (False: when reading fails after some lines, because of bytes that cannot be decoded or an I/O error, the parser returns the database of the lines before, as if the file ended there. The text of the exception on standard error is the only sign. The statements used are the first ones of the file and none is cut short, the tables are the first ones of the whole file, errors in the rest are hidden and no others arise, and nothing is lost if every statement had ended before.)", "quantifier": "every DDL text, every number of lines before the failure and every exception", "why_tests_cant": "the failure can come at any line of a file of any length, inside or outside a statement or comment", "anchors": ["dt/io.py:DDLParser._get_statements", "dt/io.py:DDLParser.parse_ddl"]}
{"id": "C110", "title": "Copies, sharing and independent databases", "statement": "Objects of the model behave like values unless the client shares them. Lists of column names handed to a constructor or a method are copied, so changing them later changes no table. A table changes only by calls on it, and a database only by calls on it or on a table it holds. Clients that each fill a database of their own end with the same databases however their calls are interleaved. Sharing has limits that are shown too: a Table added to two databases changes in both, the list that get_shard_key_columns returns is the table's own, and get_table_names returns a view that follows later changes and not a list.", "quantifier": "every program of calls that makes lists, shard keys, foreign keys, tables and databases, every sharing of objects, every interleaving of clients", "why_tests_cant": "an alias can be made anywhere in a program and show its effect any number of calls later", "anchors": ["dt/model.py:ForeignKey.__init__", "dt/model.py:ShardKey.__init__", "dt/model.py:Table", "dt/model.py:Database", "dt/model.py:Table.get_shard_key_columns", "dt/model.py:Database.get_table_names"]}
{"id": "C111", "title": "An Excel reader after a read that raised", "statement": "A read of a workbook that raises an exception leaves the Excel reader, and the databases it has returned before, as they were. (False: the reader then holds what it would hold after reading the same workbook cut off before the row that raised, and a database, still without tables, that this row of the sheet Tables names for the first time. Dictionaries returned by earlier reads are the reader's own and show this too. No database and no table held before is lost, and what C108 says about later reads holds all the same.)", "quantifier": "every workbook, every row at which the read can raise, every history of reads with one reader, failed or not", "why_tests_cant": "a read can raise at any row of any of four sheets, after any history of workbooks", "anchors": ["dt/io.py:XLSReader.read_xls", "dt/io.py:XLSReader._read_tables_from_workbook", "dt/io.py:XLSReader._read_columns_from_workbook", "dt/io.py:XLSReader._read_foreign_keys_from_workbook", "dt/io.py:XLSReader._read_relationships_from_workbook"]}
{"id": "C112", "title": "ddldiff and review_model leave files alone", "statement": "Comparing and reviewing only read: however they end, ddldiff and review_model change no file, and ddldiff sends nothing to a cluster. (False of review_model with the address of a cluster: it writes what the cluster answers into the file named after the database with .tmp, in place of a file of this name. It removes that file when the answer could be parsed, and leaves it behind when not. Nothing else is changed, and nothing at all without an address.)", "quantifier": "every choice of options, every file system, every answer and failure of files and cluster, every way to end", "why_tests_cant": "a file is lost or left only for certain names and failures; all the others would have to be shown untouched in every run", "anchors": ["ddltools/ddldiff.py:main", "ddltools/review_model.py:main", "ddltools/review_model.py:read_from_ts"]}
{"id": "C113", "title": "Only the named inputs matter, and a run can be repeated", "statement": "What convert_ddl, ddldiff and review_model do depends only on the options, the cluster and the files named as inputs: other files, and what the files to be written held before, make no difference to what is printed, sent, written or raised (of the configuration file of review_model only its existence matters). So a run that did not write over its own input can be repeated: with the same answers from the cluster it prints and sends the same again, and no file changes.", "quantifier": "every choice of options, every two file systems that agree on the inputs, every answer and failure of files and cluster, every way to end", "why_tests_cant": "it compares all pairs of file systems; a test sees one directory at a time", "anchors": ["ddltools/convert_ddl.py:main", "ddltools/ddldiff.py:main", "ddltools/review_model.py:main", "dt/io.py:smart_open"]}
{"id": "C114", "title": "What is read from a workbook is well formed and can be converted", "statement": "Every database an Excel reader holds, after any number of workbooks and even after a reading that raised, is filed under its own non-empty name, has each table, column, foreign key and relationship once and under its name, only column types the model knows, foreign keys with as many source as target columns that start at the table they are filed in, and key column names without surrounding white space. So it can always be validated and written as TQL (unless camel case is asked for, which fails for a name without letters), and if its texts fit into cells it is written to and read from Excel without loss, relationships included. Likewise whatever model convert_ddl has read, from whichever source, validation and the conversion to TQL succeed.", "quantifier": "every sequence of workbooks with any cells, complete or not, every interrupted reading, every model read by convert_ddl, every choice of options", "why_tests_cant": "the invariant has to hold for every content of every cell and every history of the reader", "anchors": ["dt/io.py:XLSReader.read_xls", "dt/io.py:XLSReader._read_tables_from_workbook", "dt/model.py:Database.validate", "dt/io.py:TQLWriter", "ddltools/convert_ddl.py:main"]}
{"id": "C115", "title": "From a workbook to TQL and back to a workbook", "statement": "A workbook converted to TQL with convert_ddl, and the TQL file converted to a workbook again, gives a workbook in which a reader finds the first database of the original again: under the name given, the same tables in the same order in the schema given, the same columns in order with their types as TQL knows them, and the same primary keys, shard keys, foreign keys and relationships. This holds for names without white space, quotes and punctuation, conditions the TQL parser can read and texts that fit into cells; a column name with a comma does not come back.", "quantifier": "every workbook whose first database has such names, every database name, schema and file names given, whatever other files there are and whatever they hold", "why_tests_cant": "two programs and four file formats are composed, for all workbooks", "anchors": ["ddltools/convert_ddl.py:main", "dt/io.py:XLSReader.read_xls", "dt/io.py:TQLWriter", "dt/io.py:DDLParser.parse_ddl", "dt/io.py:XLSWriter.write_database"]}
{"id": "C116", "title": "Converting what was converted changes nothing", "statement": "A DDL file is converted to TQL with convert_ddl, the result is converted with the same options, and that result once more: the last two files are the same text, and the first two are exactly if no column of the original was written with the type INT (which is read as BIGINT). This holds with and without --lowercase or --uppercase, for names without white space, quotes and punctuation, if the option does not make two tables, or two columns of a table, have one name. With camel case alone, or when names fall together, a second conversion can change the file.", "quantifier": "every DDL file that defines a table and meets these conditions, all database names, schemas (except variants of falcon_default_schema in other letters), file names and flags, whatever other files there are", "why_tests_cant": "it is an equality of texts over all models, with a parser and a writer composed three times", "anchors": ["ddltools/convert_ddl.py:main", "dt/io.py:TQLWriter", "dt/io.py:DDLParser.parse_ddl", "dt/generator.py:TQLCommandGenerator.to_case"]}
{"id": "C117", "title": "With a case option the script creates the converted model, or fails", "statement": "The script of a valid model, written with CREATE DATABASE and any case option that keeps its tables apart, and run on a catalog without that database, creates exactly the model with its table, schema, database and column names converted, if the option does not make two columns of a table one, or two schemas one, or another schema the default schema, and leaves the names of all key columns as they are. In every other case the run fails. If two tables get one name, the run can succeed and leave only the second.", "quantifier": "every valid model whose foreign keys and relationships stay in their schema, every combination of case options and every catalog without that database", "why_tests_cant": "it is an equivalence over all models, options and catalogs", "anchors": ["dt/generator.py:TQLCommandGenerator", "dt/generator.py:TQLCommandGenerator.to_case", "dt/io.py:TQLWriter.write_tql"]}
{"id": "C118", "title": "What convert_ddl calls valid can be created", "statement": "convert_ddl with --validate, --create_db and --to_tql, reading a DDL file or a workbook, either prints 'Database is valid.' and says nothing about issues, or reports issues. If it prints that, the script it has written runs on a cluster without that database and creates exactly the model that was read; with a case option it creates the model under the converted names, or fails exactly in the cases of C117. Column names must not contain double quotes, and the quotes in conditions must balance.", "quantifier": "every DDL file that can be read and every workbook, all database, schema and file names, all case options that keep the tables apart, every catalog without the database", "why_tests_cant": "it composes parser, validation, writer and execution for all files", "anchors": ["ddltools/convert_ddl.py:main", "dt/model.py:Database.validate", "dt/io.py:DDLParser.parse_ddl", "dt/io.py:XLSReader.read_xls", "dt/io.py:TQLWriter.write_tql"]}
{"id": "C119", "title": "A script can be run again", "statement": "A script written without CREATE DATABASE, run on a database that has the schemas, replaces the tables of the model by what the model says and keeps all other tables and databases; run a second time it changes nothing. On a database just created with CREATE DATABASE it changes nothing either, while the script with CREATE DATABASE fails the second time. This holds with all case options that keep names apart and key columns as they are.", "quantifier": "every valid model whose constraints stay in their schema, all case options, every catalog with (or without) the database", "why_tests_cant": "it ranges over all models and all contents of the catalog", "anchors": ["dt/io.py:TQLWriter.write_tql", "dt/generator.py:TQLCommandGenerator.generate_drop_table_statement", "dt/generator.py:TQLCommandGenerator.generate_create_table_statement"]}
{"id": "C120", "title": "The two ALTER scripts of ddldiff undo each other", "statement": "ddldiff with --alter1 and --alter2 prints two scripts. Run on a database that holds the first file's model, the first script succeeds and leaves the second file's model, and the second script run after it succeeds and restores the first; and the other way round. The database's name and schemas stay. This needs, in both directions, that the changes are ones the scripts can make: tables only one file has come without foreign keys and relationships, no primary key is gained or changed, new keys use columns that are there when they are added, no dropped column is referred to by a table that is dealt with later, foreign keys and relationships of a table do not share names, and foreign keys of the same name that differ are told apart by the comparison.", "quantifier": "every two readable DDL files with such differences, every database and schema name, every database holding one of the two models", "why_tests_cant": "files and models are unbounded, and whether each statement of the second script is possible depends on the effect of all those of the first", "anchors": ["ddltools/ddldiff.py:main", "dt/diff.py:DDLCompare.compare_databases", "dt/diff.py:TQLAlterWriter.write_alters"]}
{"id": "C121", "title": "A DDL parser can be used again", "statement": "A DDLParser reads a file as a new one would, whatever was done with it before (other files, missing files, files that raised, changed names): it returns a new database with the model of the text, writes the same messages and raises the same exceptions. Databases returned earlier are not changed by any later parse. After an exception the parser's database is the model of the statements before the one that raised; a missing file gives None and leaves the parser as it was; without a file name TypeError is raised and the parser's database is empty.", "quantifier": "every history of parsers, parses, attribute changes and changes the program makes to databases; every file system and text", "why_tests_cant": "it ranges over all histories and all texts", "anchors": ["dt/io.py:DDLParser.__init__", "dt/io.py:DDLParser.parse_ddl"]}
{"id": "C122", "title": "What a validation message says", "statement": "Every issue that validation reports names the database, the table and the column, key, foreign key or relationship at fault, and says what is wrong with it: which column is of type UNKNOWN, which column of the primary key or shard key is missing, which shard key column is outside the primary key, which foreign key leads to a missing table, to a key of another length, to a column outside the key, from or to a column that is missing or of another type, and which relationship starts at another table or leads to a missing one. There is a message for every fault, in the order of the tables, and no other message.", "quantifier": "every model with foreign keys as the tools build them, with any number of tables, columns, keys, foreign keys and relationships and any names", "why_tests_cant": "it ranges over all models and all combinations of faults", "anchors": ["dt/model.py:DatabaseValidator.validate", "dt/model.py:DatabaseValidator._validate_column_types", "dt/model.py:DatabaseValidator._validate_primary_key", "dt/model.py:DatabaseValidator._validate_shard_keys", "dt/model.py:DatabaseValidator._validate_foreign_keys", "dt/model.py:DatabaseValidator._validate_relationships", "dt/model.py:ValidationResult"]}
{"id": "C123", "title": "What the exit status says", "statement": "A script that calls convert_ddl, ddldiff or review_model can tell from the exit status what happened. 0 means that what the command line asks for is done: a model was read, every file named as a destination holds it, every cluster named was sent its script, and it is valid if it was to be validated. 1 means that an exception stopped the tool. 2 means that the command line could not be read, and then nothing was done.", "quantifier": "every command line, every state of the files, every response of the clusters and every failure of opening or writing a file", "why_tests_cant": "it ranges over all command lines, inputs and failures", "anchors": ["ddltools/convert_ddl.py:main", "ddltools/convert_ddl.py:valid_args", "ddltools/convert_ddl.py:read_ddl", "ddltools/convert_ddl.py:write_tql", "ddltools/convert_ddl.py:write_excel", "ddltools/convert_ddl.py:write_to_ts", "ddltools/ddldiff.py:main", "ddltools/ddldiff.py:valid_args", "dt/io.py:DDLParser.parse_ddl", "ddltools/review_model.py:main", "ddltools/review_model.py:valid_args"]}
{"id": "C124", "title": "What --debug adds", "statement": "With --debug the log shows every line of a DDL file as it is read without comments, every statement as it is found, and then each statement followed by how it is understood. A message stands after the statement it is about, and when an exception stops the parse the last statement shown is the one that caused it. Nothing else changes: convert_ddl and review_model end in the same way, with the same files and commands to clusters, the output differs only by the value of debug among the arguments, and standard error only by lines that begin with DEBUG.", "quantifier": "every text of a DDL file, every command line of convert_ddl and review_model, every state of the files, every response of the clusters and every failure of opening or writing a file", "why_tests_cant": "it ranges over all texts and all runs, with and without failures", "anchors": ["dt/io.py:DDLParser.parse_ddl", "dt/io.py:DDLParser._get_statements", "dt/io.py:DDLParser._add_primary_key", "ddltools/convert_ddl.py:main", "ddltools/review_model.py:main"]}
{"id": "C125", "title": "Relationships that could be foreign keys are recommended", "statement": "As README and review_model --show_tests say, the review of relationships finds the relationships that can be replaced with foreign keys: if a relationship says that a column of its table equals the primary key of the other table, the results of the review contain a recommendation.", "quantifier": "every database, selection of tests, worksheet, connection and configuration", "why_tests_cant": "it ranges over all models and runs", "anchors": ["dt/review/review_tests.py:review_relationships", "dt/review/review.py:DataModelReviewer.review_model"]}
{"id": "C126", "title": "A test asked for by name is not passed over in silence", "statement": "If review_model is given names of tests, each of them is run, or the user is told that it is skipped, or the name is refused. In particular this holds for the tests that README lists.", "quantifier": "every database, list of names, worksheet, connection and configuration", "why_tests_cant": "it ranges over all names and all models", "anchors": ["dt/review/review.py:DataModelReviewer.review_model", "dt/review/review_tests.py"]}
