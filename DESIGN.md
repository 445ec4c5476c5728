# Formal model of cldf/csvw in Rocq (Coq 8.16.1)

## 1. Trusted base

* Coq's kernel (8.16.1) and `coqc`.
* Axioms: none of our own. `Print Assumptions` is written under every property
  theorem (files `Props_*.v`); all are expected to print
  "Closed under the global context" (section 5 keeps the list of any exceptions).
* The hand translation of `/repo/src/csvw/*.py` into Gallina: every definition
  carries a comment citing file and lines; simplifications are noted there and
  summarised in section 4.
* Models of the Python standard library used by csvw, written by hand from
  CPython's sources and documentation: `_csv` reader/writer (`PyCsv.v`),
  universal-newline line splitting of `io.TextIOWrapper(newline='')`,
  `str` methods (`PyStr.v`), `decimal` (`Decimal.v`), `binascii`.
* Other external behaviour appears as universally quantified oracles (Section
  variables, discharged into the theorem's statement), never as axioms.

## 2. Representation

* `str` = `list N` of code points; `lit "…"` injects ASCII literals.
* exceptions are values: `res A := Ok a | Err e`.
* a generator = the list of items it yields plus the way it ends
  (`Done` / exception).
* dict = association list in insertion order (Python ≥ 3.7 semantics).
* files = list of code points after decoding / bytes before; encoding codecs
  other than UTF-8 are not modelled.

## 3. Per property

| id | what is modelled | how proved |
|----|------------------|------------|
| C01,C02,C03 | `_csv` writer and reader state machines, UnicodeWriter/UnicodeReader, Dialect.as_python_formatting_parameters | token-stream induction: reader run over writer output, field → row → file |
| C04 | UnicodeReader.__next__ as a step function | run of the iterator = filter/map spec by induction on rows |
| C05 | line counting of UnicodeReaderWithLineNumber | counting lemma over newline counts of cells |
| C06 | UnicodeDictReader.item/__next__ | dict lookup lemmas |
| C07,C08,C09 | rewrite / add_rows / filter_rows_as_dict over a file-system step model | induction on rows, invariant over crash prefixes |
| C10 | UnicodeWriter.writerows | invariant on writer state over call sequences |
| C11,C12 | Dialect (attrs, validators, asdict, cached_property) | case analysis; history machine with cache |
| C13 | slug, normalize_name with Unicode tables as oracles | character-class induction |
| C14–C23 | datatypes.py classes | direct, arithmetic on digit lists |
| C24–C26 | Column.read/write, Description.inherit | case analysis / induction on lists |
| C27–C31 | Table.iterdicts, Table.write | row loop refinement to a declarative row spec |
| C32,C33 | check_primary_key, check_referential_integrity | invariant of the seen-set / fold over FKs |
| C34 | Schema.__attrs_post_init__ | induction |
| C35,C36,C48 | asdict/fromvalue, NaturalLanguage, partition_properties | round-trip algebra |
| C35 (settling) | what becomes of any description that is serialised and read again, without assuming that it survives (`SettleSpec.v`) | attribute by attribute: each value contributes the same to the serialisation as what it settles to (`SettleProofs*.v`); the settled parts are those of an object read from some metadata (`FromParts.v`), to which C35 applies |
| C37,C38 | db.schema ordering, ColSpec, foreign key clause | loop invariant on the ordered dict |
| C39–C43 | Database.write/read over an abstract SQL store | simulation |
| C44 | jsonld.to_json (`Jsonld.v`) | tree induction, a result relation independent of the recursion |
| C45 | jsonld.group_triples (`Jsonld.v`); rdflib's graph serialisation is a parameter | loop invariant on the grouped dict |
| C46 | frictionless.convert_column_spec and its meaning for `Column.fromvalue` | case analysis on types; warning-independence of partition_properties |
| C47 | CSVW.is_valid | boolean composition |
| C49 | jsonld.frame | every item placed exactly once; induction on depth |
| C50 | frictionless.DataPackage.to_tablegroup up to `TableGroup.fromvalue(md)` | inversion of the converters |
| C51 | CSVW.to_json, _table_to_json, _row_to_json, _describes, Triple.from_col, over the models of iterdicts (C27), to_json (C44), group_triples (C45) | inversion of the conversion to relations (`row_described`, `table_converted`); for plain tables an equivalence |
| C52 | iterdicts from zip archives and URLs (TextIOWrapper with newline translation), Table.write(_zipped=True) with its crash points | simulation of the csv parser on translated lines; a CR that is read never gets lost, so without CR in the rows both runs agree |
| C53 | CSVW.__init__ up to the construction of tables, locate_metadata, get_json; requests, json, urljoin, URI templates as functions | case analysis of the search against a declarative relation `located`, which is functional; totality under well-formed answers |
| C54 | jsonld.format_value, datetime.isoformat, with_tz, date/time.to_python with timezones | string surgery lemmas on the isoformat text; read-back through the parser theorems of C21 |
| C55 | pathlib paths, Link.resolve, TableLike.base/from_file/to_file, TableGroup.read/write/copy/tabledict over a file system (paths to text files and archives) | frame lemmas per step, induction over the tables, injectivity of paths; round trip through C27/C52; interruption as an inductive relation |
| C56 | NAMESPACES, TableLike.expand with uritemplate and urljoin as parameters, qname2url | facts on the table of namespaces by computation, prefix-code argument for injectivity |
| C57 | Python's re for patterns of characters, sets, groups, alternatives, quantifiers and anchors: the parser, the backtracking matcher; string, NMTOKEN, anyURI, durations | the matcher decides the usual denotation (induction on the expression, progress argument for loops); a pattern parsed in brackets is the pattern parsed alone (induction on the fuel of the parser); every expression has a text that is parsed back |
| C58 | Python's json: dumps on one line and indented, loads; the datatype json with a schema oracle | an inductive grammar of JSON texts; the scanner is complete (mutual induction on the grammar) and sound (induction on the fuel) for it; what is written is in the grammar (induction on the value) |
| C59 | metadata2markdown on an abstraction of the description objects | a reader that splits the text into lines, sections and cells; reading what is rendered gives what the group says (lines distribute over joins; no line of another block is a header); rendering succeeds iff the group is renderable |
| C60 | Table.iterdicts in its lax mode, and the group checks | the reading has no warnings iff the header, cells and required columns fit (induction over rows and cells); key checks then reduce to C47 |
| C61 | Table.iterdicts with strict=False, and with an empty column list | the dict of a row is exactly cells ++ Nones ++ computed columns, by induction over cells, columns and rows |
| C62 | the way from the attributes of description objects (`Descr.v`) to the settings of reading and writing (`Load.v`) | inversion of fromvalue per class against a specification over JSON objects only (`LoadSpec.v`); inheritance by induction over the levels; c62_files composes C35 and C55 |
| C63 | the warnings of converters, validators, partition_properties and post-initialisation, per class (`Warn.v`) | 'no warning' is characterised per attribute and lifted through fromvalue, against a specification over JSON objects only (`WarnSpec.v`); columns by induction, using what C62 says about keys |
| C64 | csvwvalidate end to end: CSVW(validate=True), from_url, keys, base of tables, is_valid, exit codes (`Cli.v`) | composition: each stage's theorem (C53, C62, C63, C60, C29, C33, C47) is applied to the objects built from the JSON; new: what is ignored while locating, links resolved by from_url, keys from JSON |
| C65 | csvw2sqlite end to end: descriptions to tables of the database, rows as keyword arguments of write, read back (`ToSqlite.v`) | composition: the tables made from the JSON satisfy the hypotheses of C39 (names, types, lists), rows are brought into the order of keys of the first one, which does not change what is written; each hypothesis about rows has a refuted counterpart |
| C66 | csvw2datasette end to end: sources found by CSVW to a database and a metadata file in a directory (`Datasette.v`) | as C65, with the description located (C53) instead of a given one; the metadata file by C58 from the sorted common properties; case analysis over the point of failure for the state of the directory |
| C67 | csvwdescribe end to end: the output of the command frictionless (oracle) to the JSON printed (`Describe.v`) | the group shows the package, by following `tables`, `tableSchema`, `columns` and `datatype` through fromvalue; metadata converted is well-formed; reading again by C35 for groups without default dialects (`DescrProofs6.v`) and C58 |
| C68 | Table.add_foreign_key on objects of descriptions (`AddKey.v`) | the parts of an object determine it, conversely parts that could have been converted are an object read from some metadata (`FromParts.v`); serialisation by C35; the check of references is a conjunction over keys, and tables that differ in keys only are alike to it (`AddKeyProofs3.v`) |
| C69 | csvw2json end to end (`ToJson.v`): metadata located, loaded, files read, converted, printed | each step is an earlier property (C53, C62, C04/C61, C51, C58); new: what the objects say about URLs, templates, notes, common properties, titles and suppression (`table_says`, from fromvalue), and what json.dumps gets (`result_shown`) |
| C70 | csvw2markdown end to end (`ToMd.v`): metadata fetched, loaded as a group, looked up, rendered | the values that fromvalue gives (C62's lemmas) are those of the objects (`group_read`); then C59 (`document_ok`, `renders`) |
| C71 | writing (C27), then validation (C47, C60) of the files written | no new model; the texts written are valid for validation's own reader, strict reading does not warn, and keys transfer along rows that agree on columns |
| C72 | C71 for `group_write` (`Files.v`), with the files or archives in a directory | the files are those of C55 (`write_tables_ok`), archives read as texts (C52), then C71's transfer of keys |

If the code violates a property a theorem named `…_refuted` exhibits the
witness and the strongest true restriction is proved beside it.

## 4. What is modelled, what is not

Files under `rocq/theories`. `X.v` is the model, `XSpec.v` the vocabulary of the
statements (independent of the model's helpers as far as possible), `XProofs*.v`
the proofs, `Props_*.v` the property theorems (with `Print Assumptions`) and the
concrete cases (`cNN_nonvacuous`) and counterexamples (`cNN_…_refuted`).

| file | models | left out / simplified |
|------|--------|------------------------|
| `PyStr.v` | `str` methods, exceptions as values | Unicode whitespace and case tables only as far as used |
| `PyCsv.v`, `PyCsvRound.v` | CPython `_csv` reader and writer, `TextIOWrapper(newline='')` lines | QUOTE_NONNUMERIC and later modes; both the old and the new treatment of escape characters are covered by flags |
| `Dsv.v` | dsv.py: readers, writers, rewrite, add_rows, filter_rows_as_dict | codecs (text after decoding); the file system is a map with atomic/non-atomic move |
| `Dialects.v` | dsv_dialects.py: Dialect with converters, validators, caches | codec lookup is an oracle |
| `Names.v` | utils.slug, normalize_name, NamedTupleReader | Unicode tables are oracles (`unicode_ok`) |
| `Json.v`, `Meta.v`, `NatLang.v` | JSON values, partition_properties, valid_common_property, NaturalLanguage | `1 == 1.0` |
| `Dec.v`, `Numeric.v` | decimal.Decimal, decimal/integer types, NumberPattern | exponent limits; float() itself (a parameter; the values of float types are abstract) |
| `Basic.v`, `Dates.v`, `Datatype.v`, `Values.v` | boolean, binary, string, date/time types, constraints | isoparse, time zones (partly in `Fmtval.v`), durations (isodate), the regular expressions of user formats (`Regex.v`), json (`JsonText.v`) |
| `Column.v`, `Schema.v`, `Table.v`, `Group.v` | Column.read/write, inherit, Schema, Table.iterdicts/write/check_primary_key, TableGroup FK checks, CSVW.is_valid | URI template expansion is an oracle; zipped input; several header rows |
| `Descr.v` | fromvalue/asdict of Datatype, Column, Schema, Dialect, Table, TableGroup | network access is an oracle (`world`) |
| `Db.v`, `DbSql.v`, `DbWrite.v` | db.py: specs, association tables, order, SQL text, write, read | conversions of float/date/JSON columns are functions of `py_fns`/`store_fns` |
| `Jsonld.v` | jsonld.py: to_json, frame, group_triples | rdflib (`graph`) |
| `Frictionless.v` | frictionless.py | json.dumps, str() of non-strings; reading the package from disk |
| `Csv2json.v` | metadata.py:1783-1873, jsonld.py:53-88 | Table.expand (`Expand.v`), format_value of scalars (`Fmtval.v`), rdflib; the `tables` key of the result is the second component of a pair |
| `Zip.v` | metadata.py:1266-1275, 1333-1352 | compression, codecs, HTTP; reading an archive as text |
| `Locate.v` | metadata.py:218-223, 1644-1681, 1719-1781, utils.py:15-16 | HTTP, JSON parser, urljoin, URI templates (functions in a record), warnings |
| `Fmtval.v` | jsonld.py:20-50, datatypes.py:283-297, 379-381, 419-424 | float conversion, durations, URIs (parameters); datetime.date and datetime.time objects (never produced by reading); formats with timezone markers in time |
| `Files.v` | metadata.py:301-312, 1081-1091, 1106-1137, 1218-1223, 1499-1538 | symbolic links, '..', permissions; a path with exactly two leading slashes; from_url; a Table loaded without a group |
| `Load.v` | metadata.py:640-677, 708-734, 758-781, 855-878, 908-951, 1035-1059, 1106-1128, 1474-1493, 1681-1684: which attributes reading uses | values that reading has no model for: see the head of the file |
| `Warn.v` | utils.py:18-27; dsv_dialects.py:34-41; metadata.py:254-277, 320-352, 375-467, 520-620, 680-692, 748-754, 894-971, 989-1077, 1463-1470: the warnings.warn calls | warnings before an exception; warnings of datatypes.py are oracles |
| `Cli.v` | __main__.py:64-88; metadata.py:1093-1104, 1119-1137, 1550-1568, 1644-1716 | the text of the printed warnings; links as '@base' that are no strings (`link_from`) |
| `ToSqlite.v` | __main__.py:126-143; db.py:214-263, 365-380, 509-514 | an output that is one of the inputs; the text printed |
| `Datasette.v` | __main__.py:89-112 | the text printed; an output directory that holds the inputs |
| `ToJson.v` | __main__.py:115-123; metadata.py:1644-1690, 1783-1873 | rowTitles that are not strings; as in `Csv2json.v`, `Cli.v`, `JsonText.v` |
| `ToMd.v` | __main__.py:146-159; metadata.py:1081-1104 | names, separators or bases that are not strings; as in `Load.v`, `Cli.v`, `Markdown.v` |
| `Describe.v` | __main__.py:30-60; frictionless.py:155-222; metadata.py:1495-1497 | directories of packages; copying a DataPackage; decoding of the output of frictionless |
| `AddKey.v` | metadata.py:1197-1212 | tuples within lists of columns |
| `Expand.v` | metadata.py:48-95, 300-312, 1139-1176; utils.py:108-119 | uritemplate's own grammar; columns called 'self' or 'var_dict' |
| `Regex.v` | datatypes.py:86-147, 166-171, 432-454, 882-888; re/_parser.py of Python 3.11 | lookaround, flags, named groups, possessive quantifiers, numeric escapes, back references to complete groups; json schemas |
| `JsonText.v` | datatypes.py:956-1023, metadata.py:219-223, 1116; json/encoder.py, decoder.py, scanner.py of Python 3.11 | float() and repr of floats, jsonschema (parameters); RecursionError, the digit limit of int, keys that are not str |
| `Markdown.v` | utils.py:122-230 | str() of values, unicodedata, file existence (parameters); Markdown itself: the text is read by the reader of `MarkdownSpec.v` |

External software that is *specified* rather than modelled from /repo:
`PyCsv.v` (CPython), `Dec.v` (decimal), `Sql.v` (tokens and grammar of SQLite's
SQL) and `Sqlite.v` (values, affinity, constraints, transactions). These are part
of the trusted base of the theorems that mention them.

Hypotheses about external functions are always visible in the statements: the
records `world`, `py_fns`, `store_fns`, `graph`, the functions `str_of`, `dumps`,
and the predicates `unicode_ok` (C13), `reals` and `dates` (C42), the
conditions `tables_ok`, `rows_ok`, `lists_ok` of `DbWriteSpec.v` (C39, C40). Beside each, an example gives an instance.

Not modelled at all: argparse, the texts the commands print beside their results (the text of
warnings, progress), HTTP and its caching, logging, `__eq__`/`__repr__` of the attrs classes, and
the context managers around files.

## 5. Assumptions per theorem

`Print Assumptions` stands under every property theorem; each prints "Closed
under the global context": no axiom is used, neither of our own nor of the
standard library. (`vcheck` lists seven axioms of `Coq.ssr.ssrunder`: that module
is loaded by the standard library (through ZifyBool); no theorem uses them.)
Only the Coq standard library is imported.
