# A Rocq model of thoughtspot/ddl_tools

This directory holds a machine-checked model of the Python package in `/repo` and proofs of the
properties listed in `properties.jsonl`. `MANIFEST.json` maps each property to its theorems, and
`seeded/LOG.jsonl` records how the theorems fared against deliberately wrong versions of the model.
In it, `first_failing_lemma` is what the build reported (the first error in each file). `theorems_failed` is derived
from it and was not observed, unless the lemma is the theorem itself: it lists the theorems whose proofs mention that
lemma, directly or through others, by name, in a file that imports the lemma's file. They are those of the claimed
property if there are any, otherwise up to six others. Proofs after the first error of a file were not tried.
A claim is the one named when the edit was written; "automatic" means that the edit was generated without a claim in mind.
Where a note says that no theorem of the claimed property was found to depend on the failing lemma, the entry does not
show that the claimed property would notice the edit: its proofs come later in the build and were not reached, or the
claim was attributed to the wrong property. Where a note speaks of lemmas admitted in the scratch copy, the build was
carried on past the first errors in this way until the claimed property itself failed.
(Earlier versions of the log put another property's title in place of such claims, and listed some theorems that only
happen to use the same names; both have been corrected.)

## Approach

* **Shallow executable model.** Every Python function is a Gallina function with the same branches.
  Exceptions are values (`result A := Ok a | Err e`). Loops are structural recursion over the list
  they traverse; `while` loops and unbounded recursion carry fuel, and a theorem shows the fuel given
  suffices (or that none does, where the code can diverge).
* **Strings** are lists of `ascii`. The model is faithful for 7-bit text; `lower`/`upper`/`strip` are
  the ASCII restrictions of Python's.
* **dict / OrderedDict** are association lists: assignment replaces in place or appends, `pop` removes.
* **Sets** whose iteration order Python leaves open are a list plus an arbitrary permutation
  oracle, universally quantified in the theorems.
* **Object identity** is modelled only where it is observable: `ShardKey` has no `__eq__`, so the
  model gives shard keys an identity tag. `RenumFacts.v` shows that the numbering does not matter.
  `Objects.v` models dt/model.py once more over a heap of objects; C110 relates it to the values used elsewhere.
  `ExcelLeft.v` models reading a workbook once more, with what the reader holds when a read raises; C111 relates it to `Excel.v`.
* **Files and output.** Library functions that write are traces of events (`Writer.v`); the command
  line tools are state transformers over files, standard output, standard error and the commands sent
  to clusters (`Cli.v`). Opening and writing can fail at any point.
* **Surroundings as parameters.** TQL servers, the YAML and Excel libraries, floating point rounding
  and number formatting are section variables, so theorems hold for all of them. Where a theorem needs
  something of one of them it says so in a hypothesis, and a concrete instance beside it meets it.
* **Findings.** Where the code violates the natural claim, a `..._refuted` theorem gives a concrete
  witness (or shows that the claim always fails), and a `..._partial` or exact theorem proves the
  strongest version found that holds. All of these have status "partial" in the manifest.

## Layout (rocq/theories)

Every area has its model, its specification (`Spec*.v`), lemmas, and the property theorems (`Props*.v`).
A `Props*.v` file holds the theorems, each followed by `Print Assumptions` and by an `Example` that
meets its hypotheses. To check what is claimed, read the `Spec*.v` file, then the `Props*.v` file.

| area | model | specification | lemmas | theorems |
|---|---|---|---|---|
| Python strings, dicts and `repr` | `PyStr`, `PyDict`, `PyRepr` | `SpecHist`, `SpecLetters` | `StrFacts`, `HistFacts` | |
| dt/model.py tables, keys, databases | `Model` | `SpecModel`, `SpecApi`, `SpecExact` | `ModelFacts`, `ApiFacts`, `ExactFacts` | `PropsModel`, `PropsExact`, `PropsScript` (C66) |
| dt/model.py validation | `Validate` | `SpecValid` | `ValidateFacts` | `PropsValidate` |
| dt/generator.py, TQLWriter | `Generator`, `Writer` | `SpecTql`, `SpecScript`, `SpecGen` | `NumFacts`, `TqlFacts`, `ScriptFacts`, `CatalogFacts`, `GenFacts`, `CheckFacts` | `PropsScript` |
| dt/diff.py | `Diff` | `SpecDiff`, `SpecAlter`, `SpecReport` | `DiffFacts`, `DiffProps`, `AlterFacts`, `DiffDemo`, `AlterRun`, `AlterOrder`, `AlterMain`, `ReportFacts` | `PropsDiff`, `PropsAlter`, `PropsReport` |
| dt/io.py DDLParser | `Regex`, `Parser`, `Messages` | `SpecParse`, `SpecParsed`, `SpecMessages` | `ParseFacts`, `SplitFacts`, `CleanFacts`, `TypeFacts`, `OccFacts`, `FieldFacts`, `ParsedFacts`, `CreateFacts`, `MessageSame`, `MessageFacts` | `PropsParse`, `PropsCreate`, `PropsMessages` |
| TQL written and read back | | `SpecRound` | `Round*` | `PropsRound` |
| dt/util.py ConfigFile | `Config` | `SpecConfig` | `ConfigFacts` | `PropsConfig` |
| dt/io.py XLSWriter, XLSReader | `Excel` | `SpecExcel`, `SpecSheet` | `Excel*` | `PropsExcel`, `PropsSheet` |
| review_tests.py, graphs | `ReviewGraph` | `SpecReview` | `GraphFacts`, `PathFacts`, `ReachFacts`, `GraphProps` | `PropsGraph` |
| review_tests.py, data | `ReviewData` | `SpecShard`, `SpecJoin`, `SpecWsJoin` | `ShardFacts`, `JoinFacts`, `WsJoinFacts` | `PropsShard`, `PropsJoin`, `PropsWsJoin` |
| review.py | `Reviewer` | `SpecReviewer` | | `PropsReviewer` |
| worksheets | `Worksheet` | `SpecWorksheet` | | `PropsWorksheet` |
| convert_ddl.py | `Cli` | `SpecCli`, `SpecCliFlow` | `CliFacts`, `CliFrame`, `RenumFacts` | `PropsCli`, `PropsCliFail`, `PropsCliFlow`, `PropsCliCase` |
| ddldiff.py | `Cli` | `SpecCliDiff`, `SpecMigrate` | | `PropsCliDiff`, `PropsMigrate` |
| review_model.py | `CliReview` | `SpecCliReview` | `CliReviewFacts` | `PropsCliReview` |

## Per property

| ids | what is modelled | how it is proved |
|---|---|---|
| C01 | `Column.__init__` | case analysis on the type list and prefix test |
| C02-C07 | operation histories as lists of operations folded over the table/database state | invariants by induction on the history against a "last write wins" specification; C07 refuted, with the exact set of listed schemas for every history (C07_exact) |
| C08-C10 | validator, issue lists | each check's issue list is empty iff its logical condition; C10 refuted (duplicate to columns), proved for distinct columns |
| C11 | counting loops | double counting by induction on tables |
| C12-C14 | `to_case`, `to_camel` | induction on strings against a split-based specification; C14 refuted, with the exact names for which it holds (C14_exact) |
| C15, C16 | `list_to_string`, create table | induction; an independent reader of TQL text reads back the columns and keys |
| C17, C18, C20 | writer as statement list; a catalog engine as specification | simulation by induction on tables; C20 refuted across schemas, with the exact condition (PropsClauses) |
| C19 | case options | refuted, with the exact condition: names the options leave alone (PropsClauses) |
| C21 | trace of writes with failure at any point | induction on the list of writes |
| C22-C34 | comparison merge loops | one merge lemma over sorted names; applying differences by simulation; C27, C28, C33, C34 refuted and characterised |
| C35 | statement texts | reading back quoted text, injectivity |
| C36-C38 | cleaning lines, splitting statements | induction on characters and lines; C37 refuted for two statements on a line, with the exact count delivered |
| C39, C40, C67, C68 | `_convert_type` | case analysis over sub-text tests |
| C41-C44, C69, C73, C74 | fields, names, CREATE, ALTER; a backtracking matcher for the regular expressions | induction on texts, invariant of the database being built; C41 refuted and described exactly (FieldsExact.v), C73 refuted with the cases that hold |
| C45, C70 | writer then parser | statement by statement, then induction on tables; exceptions as refuted theorems |
| C46, C47 | `ConfigFile` | induction on lines and entries |
| C48-C52, C71, C72, C75, C76 | workbooks as rows of cells | induction on rows; C49, C52, C71 refuted with exact descriptions |
| C53, C54, C56, C57 | graph reviews | reachability and path invariants, fuel bounds, any order of sets |
| C55 | limits from configuration files | refuted for all files |
| C58 | sharding review over floating point | any rounding function with the properties in `SpecShard` |
| C59-C62, C93 | join reviews | meaning of count queries and probes as specification; answers of the server are truthful; C59 for keyed tables and for joins of a table with itself (`PropsSelfJoin`), C62 refuted; C93 for every server |
| C63, C77 | `DataModelReviewer` | induction on the names in a module |
| C64, C78 | worksheet reader | exact reading of documents; formulas and line ends refuted; `SpecYaml` is a reader of a part of YAML, and `PropsYaml` shows by induction on it what the change of the text does to a document |
| C65 | argument checks of the three tools | exact acceptance and messages; refuted where messages and checks differ |
| C66 | whole client programs | invariant by induction on programs |
| C79-C86 | convert_ddl | composition of effects (`does`, `effect`), frame predicate `keeps` for all failures |
| C87, C88 | ddldiff | composition with C22-C31 |
| C89, C90 | review_model | composition with C53-C63 |
| C91, C92 | two runs in a row | C79 with C48/C49, and C79 with C45 and C87 |
| C94 | case options of convert_ddl | C79 with the reader of TQL scripts (C17) |
| C95 | the ALTER statements run by an engine over the catalog (`SpecAlter`) | simulation statement by statement, then the order of the changes; the failing classes as a refuted theorem |
| C96 | the parser's handlers paired with the messages they print or log (`Messages`) | case analysis per kind of statement against a specification by the words in it; induction over the file; the round trip of C45 carried out on the paired functions |
| C97 | the printed form of a difference (`Diff.diff_repr`) and the output of ddldiff | counting lines: a line determines table and kind, then the counts follow from the structure of the comparison |
| C98 | convert_ddl, ddldiff --alter1 and both scripts run in a row | C79 and C87 with C18 and C95; the numbering of shard key objects is shown not to matter |
| C99 | `Parser.parse_create_table` on statements given by an abstract syntax for other databases' spelling (`SpecDialect`) | reading each kind of item by itself, then induction over the items; the raw text is cut at the commas outside parentheses; limits as theorems over classes of statements |
| C100 | `Parser.get_statements` and `parse_text` (no new model) | the text as tokens (words and semicolons): stripping, collapsing runs and cutting comments keep the tokens of a line, rejoining lines keeps the tokens of the text, and tokens cut at semicolons are unique; a clean statement (C38) is its tokens joined by blanks |
| C101 | `Parser`'s and `Messages`' handlers of ALTER TABLE (no new model) | statements described part by part in `SpecAlterDialect`; the greedy patterns are resolved by where their literals can occur last, and each part is unquoted back to its name |
| C102 | `Args`: the declared options and argparse's reading of words, for parsers of flags and options with one text | command lines described by a grammar in `SpecArgs`; both directions by induction over the words; the tools by composition with `Cli` and `CliReview` |
| C103 | `Messages` run inside the tools of `Cli` and `CliReview` | standard error only grows (frame lemmas for each step); C96 at each place of the script |
| C104 | `ReviewTalk`: the reviews with what they print, on top of `ReviewData` and `Reviewer` | equal to the silent reviews by induction over joins and reviews (`TalkFacts`); a closure property of the sequencing operator for visible queries; relations `joins_voiced`, `ws_voiced` by induction over joins |
| C105 | `Parser`, `ReviewData`, `Reviewer`, `CliReview` as above; `SpecTexts`: the texts of a model, statements that read | a property of characters is kept by every step of the reader and the parser (`TextsFacts`), for any such property; closure properties of the sequencing operators for the queries asked (`ReadsFacts`) and the commands sent |
| C106 | `ExcelTalk`: the reader of workbooks with its messages and their texts, kept also when it raises; `Cli.read_book` prints them; `SpecBook`: cells by sheet, row and header, and the lines | the reader of `Excel` and this one agree (`ExcelTalkFacts`); which messages a sheet causes by induction on its rows, as no row of the later sheets makes a table known (`BookFacts`); what the rest of the tool prints comes after |
| C107 | `SpecContents`: what each row of a sheet says (`..._entry`, by the cells of the row), `filled`: a dictionary with the last value and the first place of each name; when a workbook is sound | `ContentsFacts`: a fold of dictionary assignments is `filled`, by induction on the rows from the end; the rows of a sheet change one dictionary of one table and keep the others; success of a row depends only on which tables are known |
| C108 | `SpecAgain`: what a reader may hold, as an inductive history of reads; `then_rows`: what was held counts as rows before the first | `AgainFacts`: the folds of C107 started from any orderly state, which every read keeps orderly; refuted by the class of incomplete workbooks |
| C109 | `ReadStop`: the loop over lines as a run over an iterator that ends, fails or yields a line; `SpecStop`: a file torn after some of its lines | `StopFacts`: lines only add statements, statements only add tables at the end; refuted for every file and failure point |
| C110 | `Objects`: dt/model.py over a heap of numbered objects; `SpecObjects`: what an object shows, programs, calls on values; `SpecClients`: the programs of `SpecApi` carried out with objects | `ObjectFacts`: an invariant of reachable heaps (inner lists are never the client's) and a frame rule for each call; `ClientFacts`: by induction over turns |
| C111 | `ExcelLeft`: the databases of the reader changed row by row, with the exception that ended the read; `SpecLeft`: the workbook cut off before a row | `LeftFacts`: the loops are cut at the failing row; what is read does not depend on what was printed; `held` of C108 has failed reads too |
| C112 | the models of the two tools (`Cli`, `CliReview`) | `PropsOnlyRead`: frame rules (`keeps`, `cleans`, `mute`) composed along the programs; refuted for classes of runs |
| C113 | the models of the three tools (`Cli`, `CliReview`); the relation between two runs in `SpecRerun` | `RerunFacts`: a relational frame rule (`depends`) composed along the programs; `PropsRerun` |
| C114 | the Excel reader (`Excel`, `ExcelLeft`), the histories of C108 (`held`), the writer, validation and convert_ddl; `SpecSound` says what a sound database is | `SoundFacts`: an invariant of `read_table_row`, `read_column_row`, `read_fk_row` and `read_rel_row` by way of `ApiFacts`, then induction over the rows and over the history; `PropsSound` |
| C115 | convert_ddl run twice over one file system (`Cli`), the Excel reader and writer, the TQL writer and parser | `PropsBack`: composition of C79, C114, C45, C48 and C49 |
| C116 | convert_ddl run three times over one file system (`Cli`) | `CasedFacts`: a script with a case option is the script of a model with other names; `SettleFacts`: one conversion, with a measure (the length of the script) that grows exactly when an INT is rewritten; `PropsSettle` |
| C117 | TQLWriter with case options, and the catalog engine of C18 as specification | `CasedRun`: the converted model is well formed and consistent, so C18's simulation applies; and from a run without error, by induction on the statements, what every statement must have met; with C19_exact the key columns; `PropsCased` |
| C118 | convert_ddl from DDL file or workbook to TQL, with validation; the catalog engine as specification | `PropsVouched`: a parsed, consistent model is writable (from C44), so C117 applies to what C79 and C114 say was written |
| C119 | TQLWriter with and without CREATE DATABASE; the catalog engine of C18 as specification | `PropsReplay`: C18's simulation on the converted model of C117, and what remains of a catalog after dropping the tables of the model |
| C120 | ddldiff with both --alter1 and --alter2, both scripts run in a row | `PropsUndo`: one run yields both lists (C87), the second comparison is the mirror of the first (C29), and C95 in both directions |
| C121 | DDLParser objects, the databases they made and a program that uses them in any order | `ParserObject` (model with numbered database objects), `PropsParser`: the loop changes one object only; numbering of shard keys as in C79 |
| C122 | `DatabaseValidator` with the texts of its messages | `SpecFaults` has one case per fault with its sentence; `PropsFaults`: membership in the list of issues by cases, `C122_refuted` by a model with every fault |
| C123 | the exit status of `convert_ddl`, `ddldiff` and `review_model` (`Status`) on top of `Args` and `Cli` | `SpecStatus`; `PropsStatus`, `PropsStatusReview`: a run that ends well takes the same steps when nothing can fail (`follows`), inversion of such a run, then C79, C102, C65 and C87 |
| C124 | the `logging.debug` calls of the parser and `convert_ddl --debug` and `review_model --debug` (`Debug`, `DebugReview`) beside the `Messages` and `Cli` models | `SpecDebug`; `PropsDebug`, `PropsDebugReview`: induction on the statements for the log; for the tool a simulation (`less`) that every step of the two runs keeps |
| C125 | `Reviewer` (C63) | `SpecReplace`; `PropsReplace`: invariant of the loop over the reviews |
| C126 | `Reviewer` (C63) | `SpecSelect`; `PropsSelect`: induction on the tests of the module |

## Trusted base

* Coq 8.16.1's kernel (`vm_compute` is used in concrete examples) and the standard library. No plug-in and no other library is used.
* No axiom is declared. `Print Assumptions` says "Closed under the global context" for every theorem in
  `MANIFEST.json`, so none uses an axiom of the standard library either. A tool that lists everything in
  the environment also shows seven entries of `Coq.ssr.ssrunder.Under_rel`; these are the opaque module
  of the standard library's ssreflect, loaded with it, and no theorem depends on them.
* The correspondence between the model and the Python text is by reading: each definition cites the
  lines it models, and says where it simplifies. As a check of that reading, `RepoTests` computes in the
  model what the project's own unit tests expect, and compares the model's workbook with the one that
  such a test once wrote (dt/tests/test_excel.xlsx). These are tests of the model, and no claim rests on them.
* The specifications: what a TQL script does to a catalog (`SpecTql`), what ALTER statements do to it
  (`SpecAlter`: they run in one schema; a constraint name that two constraints of a table have cannot be
  dropped; a column in use cannot be dropped; a primary key or table can be dropped whatever refers to it),
  what a count query answers
  (`SpecJoin`), what rounding guarantees (`SpecShard`).

## What is modelled

| file | lines | modelled |
|---|---|---|
| dt/model.py | all | all classes and functions; `__repr__`/`__str__` only where their text is shown to users |
| dt/generator.py | all | all |
| dt/diff.py | all | all, including `TQLAlterWriter` |
| dt/util.py | all | `ConfigFile`; `eprint` as output |
| dt/io.py | all | `DDLParser`, `TQLWriter`, `smart_open`, `XLSWriter`, `XLSReader`, `YAMLWorksheetReader` |
| dt/review/review_tests.py | all | all reviews; what they print while running in `ReviewTalk` |
| dt/review/review.py | all | all; the names in a module are a list |
| ddltools/*.py | all | `main`, `parse_args`, `valid_args` and the readers and writers |

## What is not modelled

* argparse beyond what `Args` models (the text of the usage and of the help, versions of Python other
  than 3.11), debug output other than the parser's (modelled in `Debug`; C124 connects runs with and without it). The parser's messages on standard error are modelled; the text Python gives an exception is an arbitrary function, and
  errors that are logged appear in the format of the logging module's default handler.
* The libraries: openpyxl and xlrd (a workbook is a list of named sheets of rows; formulas evaluate by an
  arbitrary function; formatting is ignored), pytql (clusters answer arbitrarily, one text or exception
  per command), yaml (the reader gets the value `safe_load` returns, whatever it is; the theorems of `PropsYaml`
  assume that it understands the part of YAML described in `SpecYaml`).
* Non-ASCII text, memory exhaustion, `OverflowError`, the recursion limit (fuel stands in for depth),
  other programs changing files during a run.
* Floating point beyond the record of rounding properties in `SpecShard`.
* Reading DDL from standard input: `DDLParser.parse_ddl` without a name calls `open(sys.stdin)`, which
  raises `TypeError`; the tools never do this.
* Reading several workbooks with one `XLSReader` in the tools: the model takes the databases read so far
  as an argument, and the tools start with none.
