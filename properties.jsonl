{"id": "C01", "title": "Default write/read round trip", "statement": "Rows written with UnicodeWriter() using default settings and read back with UnicodeReader() come back as the same list of rows of strings (None as the empty string, other objects as their str()), whatever delimiters, quotes, carriage returns or line feeds the cells contain, provided no cell is longer than the csv field size limit and the text does not start with U+FEFF (which the reader strips as a BOM).", "quantifier": "all lists of rows, all rows (including empty rows and rows with a single empty cell), all cell strings", "why_tests_cant": "the interaction of quoting, embedded line breaks and the line-splitting of the file must be right for every string; tests sample a few rows", "anchors": ["src/csvw/dsv.py:UnicodeWriter", "src/csvw/dsv.py:UnicodeReader"]}
{"id": "C02", "title": "Round trip under a CSVW dialect", "statement": "For every Dialect with doubleQuote=True whose delimiter and quoteChar are distinct single characters other than CR/LF and whose first line terminator is CRLF, LF or CR, rows written with that dialect and read with the same dialect come back unchanged except for what the dialect asks the reader to drop (comment rows, blank rows, skipped rows/columns, trimming); with none of these options set the rows come back unchanged. skipInitialSpace=True is the exception: leading spaces of unquoted cells are lost.", "quantifier": "all dialects in the stated class, all lists of rows", "why_tests_cant": "infinitely many delimiter/quote/terminator combinations crossed with all cell contents", "anchors": ["src/csvw/dsv_dialects.py:Dialect.as_python_formatting_parameters", "src/csvw/dsv.py:UnicodeWriter", "src/csvw/dsv.py:UnicodeReader.__next__"]}
{"id": "C03", "title": "Escape character (doubleQuote=False) round trip", "statement": "With doubleQuote=False the writer doubles backslashes itself to work around a csv.writer defect: on interpreters whose csv.writer does not escape the escape character (Python < 3.10) every row round-trips; on interpreters whose csv.writer does (>= 3.10) every backslash of every cell comes back doubled, and nothing else changes.", "quantifier": "all rows, all cell strings, both interpreter behaviours", "why_tests_cant": "the claim is about every string containing backslashes, quotes and delimiters in any arrangement", "anchors": ["src/csvw/dsv.py:UnicodeWriter.__init__", "src/csvw/dsv_dialects.py:Dialect.escape_character"]}
{"id": "C04", "title": "What a dialect-driven reader yields", "statement": "Iterating a UnicodeReader with a Dialect yields, in order, exactly the parsed rows that are not comments (first cell starts with commentPrefix), not blank rows when skipBlankRows is set, and not within the first skipRows lines; each yielded row is the parsed row with every cell trimmed according to `trim` and the first skipColumns cells removed. `comments` holds exactly the skipped comment/leading non-empty rows with their line numbers, in order.", "quantifier": "all sequences of parsed rows, all dialects, any number of next() calls", "why_tests_cant": "depends on the whole history of rows skipped so far", "anchors": ["src/csvw/dsv.py:UnicodeReader.__next__", "src/csvw/dsv.py:UnicodeReader._next_row"]}
{"id": "C05", "title": "Reported line numbers", "statement": "The line number paired with each row by UnicodeReaderWithLineNumber is 1 + the number of line feeds in all text consumed before the end of that row, i.e. the number of the text line on which the row ENDS, when every row break and every line break inside a cell is LF or CRLF. (The docstring promises the line where the row starts; that is false for multi-line rows.)", "quantifier": "all inputs, all positions in the iteration", "why_tests_cant": "an accumulated counter over arbitrary prefixes of arbitrary files", "anchors": ["src/csvw/dsv.py:UnicodeReaderWithLineNumber.__next__", "src/csvw/dsv.py:UnicodeReader._next_row"]}
{"id": "C06", "title": "Dict reader maps cells to field names", "statement": "Every dict yielded by UnicodeDictReader has each field name mapped to the cell in the same position (last one wins for duplicates), missing trailing cells mapped to restval, surplus cells collected under restkey, and nothing else; empty rows are skipped; the first row provides the field names when none are given.", "quantifier": "all headers, rows, restkey/restval", "why_tests_cant": "row/header length mismatches of every size", "anchors": ["src/csvw/dsv.py:UnicodeDictReader.item", "src/csvw/dsv.py:UnicodeDictReader.__next__"]}
{"id": "C07", "title": "rewrite applies the visitor and is crash safe until the final move", "statement": "After rewrite(fname, visitor) the file reads back as the list of non-None results of visitor(i,row) over the original rows in order; and at every point before the final move step - including any exception raised by the reader, the visitor or the writer - the original file is byte-for-byte unchanged.", "quantifier": "all files, visitors, crash points", "why_tests_cant": "crash points and exceptions at arbitrary rows", "anchors": ["src/csvw/dsv.py:rewrite"]}
{"id": "C08", "title": "add_rows appends", "statement": "After add_rows(fname, *rows) the file reads back as the rows it held before (none if it did not exist) followed by the given rows; any sequence of add_rows calls leaves the concatenation of all rows added.", "quantifier": "all file contents, all histories of add_rows calls", "why_tests_cant": "histories of arbitrary length", "anchors": ["src/csvw/dsv.py:add_rows"]}
{"id": "C09", "title": "filter_rows_as_dict keeps exactly the selected rows", "statement": "filter_rows_as_dict(fname, f) keeps the header row and exactly the non-empty rows whose dict (header zipped with row) satisfies f, in order, and returns the number of non-empty rows it dropped; empty rows are dropped without being counted.", "quantifier": "all files, all predicates", "why_tests_cant": "all predicates and row lists", "anchors": ["src/csvw/dsv.py:filter_rows_as_dict", "src/csvw/dsv.py:DictFilter"]}
{"id": "C10", "title": "writerows on dicts writes the header once", "statement": "A sequence of writerows calls with dict rows on a fresh writer writes one header row (the keys of the very first dict) followed by the values of every dict; no header is ever written after a row has been written.", "quantifier": "all sequences of writerows/writerow calls", "why_tests_cant": "stateful: depends on the whole call history", "anchors": ["src/csvw/dsv.py:UnicodeWriter.writerows", "src/csvw/dsv.py:UnicodeWriter.writerow"]}
{"id": "C11", "title": "Dialect construction sanitises and serialises faithfully", "statement": "Building a Dialect from arbitrary JSON values either fails or yields a dialect whose attributes have the required types (skip counts and headerRowCount non-negative, trim one of the four words); any dialect re-built from its own asdict() is equal to it, with or without omitting defaults.", "quantifier": "all JSON values for all properties; all dialects", "why_tests_cant": "unbounded value space", "anchors": ["src/csvw/dsv_dialects.py:Dialect", "src/csvw/utils.py:converter", "src/csvw/utils.py:attr_asdict"]}
{"id": "C12", "title": "Dialect settings take effect whatever happened before", "statement": "The formatting parameters and trimming of a dialect should depend only on its current attribute values, not on which of them were read earlier. This fails: escape_character, line_terminators and trimmer are cached on first access, so later assignments are ignored; it holds for dialects whose cached values have not been accessed, and dialect.updated(...) always returns such a dialect.", "quantifier": "all histories of attribute assignments and accesses", "why_tests_cant": "quantifies over histories", "anchors": ["src/csvw/dsv_dialects.py:Dialect.trimmer", "src/csvw/dsv_dialects.py:Dialect.updated"]}
{"id": "C13", "title": "slug and normalize_name produce clean names", "statement": "slug(s) consists only of ASCII letters and digits (no upper case when lowercase is set); normalize_name(s) is a non-empty string of ASCII letters, digits and underscores that does not start with a digit. It is idempotent on such strings except keywords. It can nevertheless be a Python keyword or start with an underscore, both of which NamedTupleReader cannot use.", "quantifier": "all Unicode strings, for any NFD/category/lower-casing tables that satisfy the ASCII facts", "why_tests_cant": "all of Unicode", "anchors": ["src/csvw/utils.py:normalize_name", "src/csvw/utils.py:slug"]}
{"id": "C14", "title": "Booleans", "statement": "For every boolean datatype with format 'X|Y' where X and Y differ (or with no usable format), reading the formatted text of a boolean returns that boolean; read accepts exactly the listed words and raises ValueError on everything else.", "quantifier": "all format strings, all input strings", "why_tests_cant": "all format strings", "anchors": ["src/csvw/datatypes.py:boolean"]}
{"id": "C15", "title": "Integer types: range check and value", "statement": "Reading a canonical decimal numeral of an integer with at most 28 digits with any of the integer datatypes returns that integer iff it lies in the documented range of the type and raises ValueError otherwise; formatted() followed by read() is the identity on that domain. Numerals of more than 28 digits are silently rounded to 28 significant digits.", "quantifier": "all integers, all 13 integer datatypes", "why_tests_cant": "all integers; boundary of decimal context precision", "anchors": ["src/csvw/datatypes.py:integer.to_python", "src/csvw/datatypes.py:decimal.to_python"]}
{"id": "C16", "title": "Decimal formatting preserves the value", "statement": "Datatype('decimal').read(formatted(d)) == d for every finite decimal d with at most 28 digits and exponent <= 0, however small. It fails for decimals with positive exponent: the expansion of scientific notation is off by a power of ten unless the coefficient has exactly two digits.", "quantifier": "all Decimal values", "why_tests_cant": "unbounded coefficient and exponent", "anchors": ["src/csvw/datatypes.py:decimal.to_string", "src/csvw/datatypes.py:decimal.to_python"]}
{"id": "C17", "title": "groupChar/decimalChar", "statement": "With format {groupChar, decimalChar} the formatted text of a decimal reads back as the same value when groupChar/decimalChar are '.' and ',' (or ',' and '.'); with other single-character choices the substitution only touches characters of the output set, so e.g. groupChar ' ' alone leaves commas in the text which read() then rejects.", "quantifier": "all decimals without exponent; all group/decimal characters", "why_tests_cant": "all digit lengths (grouping) and characters", "anchors": ["src/csvw/datatypes.py:decimal.to_string"]}
{"id": "C18", "title": "Percent and permille", "statement": "Reading '<numeral>%' ('<numeral>\u2030') yields the numeral's value divided by 100 (1000), exactly, for numerals of at most 28 digits.", "quantifier": "all numerals", "why_tests_cant": "all digit strings", "anchors": ["src/csvw/datatypes.py:decimal.to_python"]}
{"id": "C19", "title": "Number patterns", "statement": "NumberPattern(p).is_valid(s) accepts s iff its significant integer digits, group sizes, number of fraction digits and exponent digits satisfy the bounds read off the pattern; in particular for a pattern without grouping '#\u20260\u20260.0\u20260#\u2026#' a plain numeral is accepted iff it has at least as many significant integer digits as zeros and between the required and the maximal number of fraction digits. With an exponent part 'E#\u20260\u2026' a numeral with a point and an exponent is accepted iff in addition the exponent has at most that many digits. Decimals and integers read through a pattern have the value of the numeral or are a ValueError, and never have an exponent; floats are Python's float of the text if the pattern admits it, else a ValueError. (Not so: zero padding is not counted - '005' is rejected by '000'; in a numeral without point the exponent counts as integer digits; 'E+00' sets no bound.)", "quantifier": "all patterns of the stated shape, all numerals", "why_tests_cant": "two unbounded string arguments", "anchors": ["src/csvw/datatypes.py:NumberPattern", "src/csvw/datatypes.py:decimal.to_python", "src/csvw/datatypes.py:_float.to_python"]}
{"id": "C20", "title": "Binary types", "statement": "hexBinary: read(formatted(b)) == b for all bytes b and formatted(read(s)) == s.upper() for all valid s; base64Binary: read(formatted(b)) == b for all bytes b (line breaks included); invalid hex text is rejected with ValueError.", "quantifier": "all byte strings and all texts", "why_tests_cant": "all lengths", "anchors": ["src/csvw/datatypes.py:hexBinary", "src/csvw/datatypes.py:base64Binary"]}
{"id": "C21", "title": "Date and time formats", "statement": "Every format string built from a documented date pattern, a documented time pattern, ' ' or 'T' as separator and optional fractional seconds is accepted and every other one is rejected with ValueError; a date/time formatted field by field according to an accepted format is parsed back to the same fields.", "quantifier": "all format strings; all valid dates and times", "why_tests_cant": "all format strings and all dates", "anchors": ["src/csvw/datatypes.py:dt_format_and_regex", "src/csvw/datatypes.py:dateTime._parse"]}
{"id": "C22", "title": "normalizedString and NMTOKEN", "statement": "normalizedString values contain no CR, LF or TAB and no leading/trailing whitespace, and reading is idempotent; NMTOKEN accepts exactly strings of word characters, '.', ':' and '-'.", "quantifier": "all strings", "why_tests_cant": "all strings", "anchors": ["src/csvw/datatypes.py:normalizedString", "src/csvw/datatypes.py:NMTOKEN"]}
{"id": "C23", "title": "Datatype constraints are enforced", "statement": "Datatype.validate(v) returns v unchanged iff v satisfies every length and bound constraint of the datatype (for types that compare), and raises ValueError otherwise; the constructor rejects contradictory constraints - except that a bound or length equal to 0 is treated as absent in some consistency checks, minimum > maximum is never rejected, and duration bounds are never enforced.", "quantifier": "all values, all constraint combinations", "why_tests_cant": "full cross product of constraints", "anchors": ["src/csvw/metadata.py:Datatype.validate", "src/csvw/metadata.py:Datatype.__attrs_post_init__"]}
{"id": "C24", "title": "Cell parsing: null, default, required, separator", "statement": "Column.read follows the CSVW cell parsing rules: an empty cell is replaced by the default; a value in the null list reads as None (or raises if the column is required); with a separator the cell is split and each part treated the same way, an empty cell giving []. A required column never yields None.", "quantifier": "all cell strings, all column settings", "why_tests_cant": "all combinations of settings and strings", "anchors": ["src/csvw/metadata.py:Column.read"]}
{"id": "C25", "title": "Cell write/read round trip", "statement": "Column.read(Column.write(v)) == v for every value v whose text survives: the formatted text is not in the null list (unless v is None), not replaced by a default, contains no separator, and the datatype round-trips; for list-valued string columns the exact condition is given.", "quantifier": "all columns, all values", "why_tests_cant": "all strings, lists of any length", "anchors": ["src/csvw/metadata.py:Column.write", "src/csvw/metadata.py:Column.read"]}
{"id": "C26", "title": "Inheritance of column properties", "statement": "datatype, required, separator, aboutUrl, propertyUrl, valueUrl of a column resolve to the value set on the nearest enclosing description (column, schema, table, table group); null does so except that an explicit [\"\"] cannot override an outer null; default and lang are never inherited although CSVW makes them inherited properties.", "quantifier": "all chains of descriptions", "why_tests_cant": "all nestings/settings", "anchors": ["src/csvw/metadata.py:Description.inherit", "src/csvw/metadata.py:Description.inherit_null"]}
{"id": "C27", "title": "Table write/read round trip", "statement": "After table.write(items), list(table) == items, for every table whose columns have distinct non-virtual headers and round-trip their values, every dialect that round-trips cells, and every list of dicts giving a value for each column.", "quantifier": "all tables, dialects, item lists", "why_tests_cant": "composition of all layers over unbounded data", "anchors": ["src/csvw/metadata.py:Table.write", "src/csvw/metadata.py:Table.iterdicts"]}
{"id": "C28", "title": "Errors are isolated to rows", "statement": "With a log, iterdicts yields exactly the rows that are free of errors - each identical to what it would yield from a file without the bad rows - and logs one message per bad cell; without a log it yields the good rows before the first bad one and then raises ValueError.", "quantifier": "all tables, all files, all positions of bad cells", "why_tests_cant": "arbitrary interleavings of good and bad rows", "anchors": ["src/csvw/metadata.py:Table.iterdicts"]}
{"id": "C29", "title": "Column order in the file does not matter", "statement": "If the header row of the file is any permutation of the column names, iterdicts yields the same mapping for every row as for the file with columns in schema order.", "quantifier": "all permutations, all rows", "why_tests_cant": "all permutations", "anchors": ["src/csvw/metadata.py:Table.iterdicts", "src/csvw/metadata.py:Schema.get_column"]}
{"id": "C30", "title": "Every dict has every column; required columns are enforced", "statement": "Every dict yielded by iterdicts has a key for every non-virtual column of the schema; if a required column is missing from the header, iterdicts raises ValueError before yielding anything; in strict mode no yielded dict has None for a required column present in the header.", "quantifier": "all tables and files", "why_tests_cant": "all rows", "anchors": ["src/csvw/metadata.py:Table.iterdicts"]}
{"id": "C31", "title": "Table.write: shape, count, strictness", "statement": "Table.write writes one header row (iff the dialect has a header) and one row per item with one cell per non-virtual column, and returns the number of items; with strict=True it raises ValueError iff some dict has a key that is not a column header - but by then the previous contents of the target file are gone.", "quantifier": "all tables and items", "why_tests_cant": "all item lists", "anchors": ["src/csvw/metadata.py:Table.write"]}
{"id": "C32", "title": "Primary key check", "statement": "check_primary_key returns True iff the key tuples of all readable rows are pairwise distinct; without a log it raises ValueError iff there is a duplicate; with a log it reports one message per row that repeats an earlier key.", "quantifier": "all tables and data", "why_tests_cant": "all row sequences", "anchors": ["src/csvw/metadata.py:Table.check_primary_key"]}
{"id": "C33", "title": "Referential integrity check", "statement": "check_referential_integrity returns True iff for every foreign key and every row of the referencing table, the key is null (None, or containing None for composite keys) or occurs in the referenced column(s) - elementwise for list-valued single-column keys; with strict=True additionally no foreign key cell is null and referenced keys are unique.", "quantifier": "all table groups, all data, any number of foreign keys in any order", "why_tests_cant": "sorting and grouping of foreign keys must not lose any", "anchors": ["src/csvw/metadata.py:TableGroup.check_referential_integrity"]}
{"id": "C34", "title": "Schema well-formedness", "statement": "If a Schema can be constructed, no regular column follows a virtual one, named regular columns have distinct names, and columns are numbered 1..n; otherwise construction raises ValueError. It warns iff a column name starts with '_' or contains white space, or two regular columns have the same header, or the primary key refers to a column without name; in the last case, and only then, the primary key is dropped.", "quantifier": "all column lists", "why_tests_cant": "all lists", "anchors": ["src/csvw/metadata.py:Schema.__attrs_post_init__"]}
{"id": "C35", "title": "Metadata survives serialisation", "statement": "A description (Datatype, Column, Schema, Dialect, Table, TableGroup) read from metadata and re-built from its own asdict() is equal to it, provided that nothing in it is left out of asdict(): properties that are [] or {}, values equal to the default (suppressOutput 0), titles in no language, and a Table's or TableGroup's explicit all-default dialect (so that after to_file/from_file the table inherits the group's dialect instead). Of these the re-built description has the defaults, and everything else as it was, at every level; serialising it again gives the same JSON, so that reading and writing metadata twice is doing so once. Dialects are always equal. (Datatype bounds must be readable from their formatted form, datatype formats and an '@id' taken from '@base' must not be odd; asdict(omit_defaults=False) of datatypes and URI templates that are not strings fail.)", "quantifier": "all descriptions read from any metadata", "why_tests_cant": "unbounded trees", "anchors": ["src/csvw/metadata.py:DescriptionBase.asdict", "src/csvw/metadata.py:DescriptionBase.partition_properties", "src/csvw/metadata.py:Datatype.asdict"]}
{"id": "C36", "title": "Titles (NaturalLanguage)", "statement": "NaturalLanguage(nl.asdict()) equals nl for every value built from a string, a list of strings or a language map; add() after construction preserves all earlier titles; titles added without a language to a map with languages come back under 'und'.", "quantifier": "all titles and histories of add", "why_tests_cant": "histories", "anchors": ["src/csvw/metadata.py:NaturalLanguage"]}
{"id": "C37", "title": "SQL table order", "statement": "Database schema creation returns every table exactly once, each after all tables it references (self references aside), whenever the foreign keys are acyclic and there are at most 100 tables; cyclic references raise ValueError; with more than 100 tables it always raises, even without any foreign key.", "quantifier": "all table groups / reference graphs", "why_tests_cant": "all graphs; the 100-iteration cap", "anchors": ["src/csvw/db.py:schema"]}
{"id": "C38", "title": "Composite foreign keys in SQL", "statement": "The FOREIGN KEY clause generated for a foreign key pairs the same columns as the CSVW foreign key. This fails for composite keys, since both column lists are sorted independently; it holds iff sorting keeps the pairs together, in particular for all single-column keys.", "quantifier": "all foreign keys", "why_tests_cant": "all column name lists", "anchors": ["src/csvw/db.py:TableSpec.from_table_metadata"]}
{"id": "C39", "title": "Database write/read round trip", "statement": "Database.read() after Database.write(**items) returns the written rows for string, integer, boolean and list-valued string columns, when all rows of a table have the same keys in the same order; rows whose keys come in a different order than in the first row are stored with values in the wrong columns.", "quantifier": "all tables and rows", "why_tests_cant": "all row sets", "anchors": ["src/csvw/db.py:Database.write", "src/csvw/db.py:Database.read"]}
{"id": "C40", "title": "List-valued foreign keys in SQL", "statement": "List-valued foreign keys written to the association table are read back as the same lists when keys contain no whitespace; keys with whitespace come back split. Several list-valued foreign keys between the same tables are kept apart by context.", "quantifier": "all rows and key lists", "why_tests_cant": "all strings", "anchors": ["src/csvw/db.py:Database.select_many_to_many", "src/csvw/db.py:TableSpec.association_table"]}
{"id": "C41", "title": "SQL identifier quoting", "statement": "Quoted identifiers denote the given names for all names without backtick; names with a backtick change the statement.", "quantifier": "all names", "why_tests_cant": "all strings", "anchors": ["src/csvw/db.py:quoted"]}
{"id": "C42", "title": "SQL CHECK constraints never reject valid data", "statement": "In a single-valued column of type integer, decimal, date, datetime, string, hexBinary or boolean, whatever the datatype accepts satisfies the CHECK constraint of the generated table: strings without null characters, decimals whose integral bounds a double can hold, and None always. (False outside of this: other numeric types are compared as text, lengths of list-valued columns and base64Binary are those of the stored text.)", "quantifier": "all tables of such columns, all minimum/maximum/length/minLength/maxLength facets, all rows of accepted values", "why_tests_cant": "cross product of facets, values, storage classes and affinities", "anchors": ["src/csvw/db.py:ColSpec.check"]}
{"id": "C43", "title": "Failed database writes leave no rows", "statement": "If Database.write raises while inserting, no row of that call remains in the database file.", "quantifier": "all failure points", "why_tests_cant": "crash points", "anchors": ["src/csvw/db.py:Database.write", "src/csvw/db.py:insert"]}
{"id": "C44", "title": "JSON-LD simplification", "statement": "to_json succeeds on every JSON value in which each @value is a string, list or object; it replaces @value wrappers and bare @id objects at every depth, renames rdf:type to @type, with flatten_list also unwraps one-item lists, keeps everything else in order, and leaves nothing to simplify (idempotent). An object with a null, Boolean or numeric @value (allowed by JSON-LD) raises TypeError.", "quantifier": "all JSON trees", "why_tests_cant": "unbounded depth", "anchors": ["src/csvw/jsonld.py:to_json"]}
{"id": "C45", "title": "Grouping of triples", "statement": "For a row without other subjects group_triples returns one object with the properties in order of first occurrence and, per property, the value, or the list of all values in order if there are several; list values of the same property are concatenated; the last @id wins. With other subjects the object with the row's @id comes first and the others keep their order; a row without @id is merged with a single other object. (Not so: a value followed by a list is nested; lists of different subjects are merged; the properties of a row without @id are lost if there are two or more other subjects.)", "quantifier": "all triple lists", "why_tests_cant": "unbounded lists", "anchors": ["src/csvw/jsonld.py:group_triples"]}
{"id": "C46", "title": "Frictionless conversion", "statement": "Converting a Frictionless field never fails for a supported descriptor (a name, a string type, list-valued trueValues/falseValues, no bareNumber, a dict of constraints), and the resulting CSVW column keeps its name, its title and description, its rdfType as propertyUrl, its type (mapped to the corresponding CSVW datatype; other types are read as strings), its minLength/maxLength/minimum/maximum, and its pattern or its number/Boolean lexical format. The constraint 'required' is put on the datatype, where it is ignored: a converted column is never required (the constraint is lost), and a bounded 'year' is rejected.", "quantifier": "all field descriptors", "why_tests_cant": "all descriptors", "anchors": ["src/csvw/frictionless.py:convert_column_spec"]}
{"id": "C47", "title": "Validation verdict", "statement": "CSVW(...).is_valid is True iff no warning was recorded while loading metadata and reading each table non-strictly, all primary keys are unique and referential integrity holds strictly.", "quantifier": "all table groups and data", "why_tests_cant": "all data", "anchors": ["src/csvw/metadata.py:CSVW.is_valid"]}
{"id": "C48", "title": "Partitioning of properties", "statement": "Every key of a description object ends up in exactly one of: @-properties, common properties (containing ':'), recognised attributes, or is dropped with a warning; nothing is lost or duplicated and values are passed on unchanged.", "quantifier": "all JSON objects", "why_tests_cant": "all key sets", "anchors": ["src/csvw/metadata.py:DescriptionBase.partition_properties"]}
{"id": "C49", "title": "Framing", "statement": "Framing a flat JSON-LD graph (as rdflib serializes it) replaces the only reference to an item by the item, at every depth, keeps every property and value, describes no subject twice, and - if the references have no cycles - describes every subject exactly once. (Not so with cycles: two items referring only to each other, or an item referring only to itself, are lost from the result.)", "quantifier": "all flat JSON-LD graphs, of any size and depth of references", "why_tests_cant": "unbounded graphs and depths", "anchors": ["src/csvw/jsonld.py:frame", "src/csvw/jsonld.py:group_triples"]}
{"id": "C50", "title": "Frictionless packages", "statement": "Converting a Frictionless data package gives metadata with the package's descriptive properties renamed (the name standing in for a missing id, else for a missing title), with the package as JSON text under dc:replaces, and with exactly one table, in order, for each resource that has a path, a schema, scheme 'file' and format 'csv'. Each table has the path as url, one column per field in order, the missing values as null, the primary key, one foreign key per foreign key with the path of the resource named (the last one of that name; an empty name stands for the table itself), and the CSV dialect of the resource.", "quantifier": "all package descriptors", "why_tests_cant": "all descriptors, any number of resources, fields and keys", "anchors": ["src/csvw/frictionless.py:DataPackage.to_tablegroup", "src/csvw/frictionless.py:convert_table_schema", "src/csvw/frictionless.py:convert_foreignKey", "src/csvw/frictionless.py:convert_dialect"]}
{"id": "C51", "title": "Conversion to JSON", "statement": "CSVW.to_json gives one object for each table that is not suppressed, in order, with its URL, its notes and common properties, the comments of the file, and exactly one object per row of the file, in order, with its number, its source line and its titles. A row is described by its cells except null values (None, '', the null values of the column), empty lists in columns with a separator, cells of suppressed columns; property and value are the expanded propertyUrl and valueUrl where there are any (also inherited ones); virtual columns are added. Without URL templates and virtual columns there is exactly one description per row, with the cells in order. Minimal mode gives exactly one object per row: the first description. (Not so: suppressOutput has no effect on virtual columns; a virtual column without valueUrl is output as null; further descriptions are lost in minimal mode, which raises IndexError if there is none.)", "quantifier": "all tables, files and groups", "why_tests_cant": "any number of rows, columns and tables; all combinations of templates, null values and suppressed columns", "anchors": ["src/csvw/metadata.py:CSVW.to_json", "src/csvw/metadata.py:CSVW._table_to_json", "src/csvw/metadata.py:CSVW._row_to_json", "src/csvw/metadata.py:CSVW._describes", "src/csvw/jsonld.py:Triple.from_col"]}
{"id": "C52", "title": "Zipped and remote files", "statement": "If no cell contains a carriage return (and the content does not start with a byte order mark that the dialect does not announce, and the encoding is not 'UTF-8-BOM'), a table is read from a zip archive or a URL exactly as from a text file: same rows, line numbers, messages and warnings. A text file takes precedence over FILE.zip. Table.write(..., _zipped=True) followed by reading gives back the items as unzipped writing does, and from the moment the text file is complete this holds at every point at which zipping is interrupted, whatever archive was there before. (Not so otherwise: a carriage return in a cell is read as a line feed, a byte order mark becomes part of the first column name, 'UTF-8-BOM' raises LookupError.)", "quantifier": "all tables, dialects, file contents, file systems and crash points of the zipping", "why_tests_cant": "all contents and dialects; all crash points", "anchors": ["src/csvw/metadata.py:Table.iterdicts", "src/csvw/metadata.py:Table.write", "src/csvw/dsv.py:UnicodeReader.__enter__"]}
{"id": "C53", "title": "Locating metadata", "statement": "CSVW(url, md_url): an explicitly given metadata document (or a url that is itself JSON) is used as is and nothing else influences the result. Otherwise, for a remote CSV file the metadata used is the document linked with rel=describedby if it has one of three JSON media types and refers to the file, else the first document among the locations listed in /.well-known/csvm (by default {+url}-metadata.json and csv-metadata.json) that is answered with status 200, is JSON and refers to the file, else a description with just the URL; so the metadata always refers to the file. For a local file it is FILE-metadata.json if it exists, else a description with the file's name. Only metadata with the CSVW @context is accepted, and a group must have tables. The header is switched off exactly for a single remote table whose content type contains header=absent. Opening succeeds if all documents are well-formed. (Not so: a Link header without type raises KeyError; a CSV file that is a JSON document raises AttributeError; the context need only contain the CSVW URL; FILE-metadata.json is used even if it describes another file; no_metadata is False for local files without metadata.)", "quantifier": "all URLs, all states of the web and the file system, all JSON documents", "why_tests_cant": "arbitrary responses, headers and documents at every location", "anchors": ["src/csvw/metadata.py:CSVW.__init__", "src/csvw/metadata.py:CSVW.locate_metadata", "src/csvw/metadata.py:get_json"]}
{"id": "C54", "title": "Cell values in JSON", "statement": "In CSVW.to_json, dates, times and dateTimes are written as yyyy-MM-dd, HH:mm:ss and yyyy-MM-ddTHH:mm:ss with the fewest digits of a fraction and the timezone at the end (Z for UTC), unless there are both a fraction and a timezone. Reading a date or time literal with the column's datatype gives back the value with its timezone, and different dateTimes have different literals. Every value that is not a list becomes a JSON scalar (NaN, INF, -INF as strings; decimals as floats; strings, integers, booleans unchanged), and this never fails with a datatype of the column's own. (Not so: with fraction and timezone, zeros are cut off the timezone; with an inherited datatype, dates, durations and bytes raise AttributeError; items of lists are not formatted.)", "quantifier": "all cell values, all datatypes, all dates, times, fractions and timezone offsets", "why_tests_cant": "infinitely many values; round trip and injectivity", "anchors": ["src/csvw/jsonld.py:format_value", "src/csvw/datatypes.py:with_tz", "src/csvw/datatypes.py:date", "src/csvw/datatypes.py:_time"]}
{"id": "C55", "title": "Files of a table group", "statement": "For a TableGroup whose tables have distinct relative urls and no @base, TableGroup.write(fname, **items) puts the text of each table given at its url next to the metadata file (zipped if asked), writes the metadata last and changes no other file; if it fails or is interrupted before that, the metadata file is unchanged, and whenever it has changed all data files are complete; an unknown table raises KeyError. TableGroup.read() reads, for each url, the last table with that url from the directory of the metadata. TableGroup.from_file(fname).read() after write gives the rows written. copy(dest) makes the same data and the metadata available under dest, changes no other file, and read() then gives the same as before; it fails, without writing metadata, if a data file is missing. (Not so: the object that wrote reads from its old place; of tables with the same url only the last is used; a missing directory makes data files appear one level up; zipped tables cannot be copied; with @base a copy still refers to the old location.)", "quantifier": "all table groups, all contents of the file system, all rows, all points of failure or interruption", "why_tests_cant": "unboundedly many groups, files and interruption points", "anchors": ["src/csvw/metadata.py:TableGroup.write", "src/csvw/metadata.py:TableGroup.read", "src/csvw/metadata.py:TableGroup.copy", "src/csvw/metadata.py:TableLike.from_file", "src/csvw/metadata.py:TableLike.to_file", "src/csvw/metadata.py:TableLike.base", "src/csvw/metadata.py:Link.resolve"]}
{"id": "C56", "title": "URI templates and QNames", "statement": "TableLike.expand(template, row, _row, _name): a template 'p:l' with a prefix p of NAMESPACES and l without ':' gives the URL of the namespace followed by l, whatever the row, and 'p:l' itself with qname=True. Any other template is expanded with the row, _row and _name and the result resolved against the table: a URL stays if the table is a local file, a relative path lies in the table's directory, and for a remote table it is joined to the table's URL. qname=True changes only URLs that begin with a namespace, into prefix:rest, and maps different URLs to different results as long as the rest has no ':'. An invalid template gives the location of the table. qname2url agrees with this for its seven prefixes and gives None for every other text. (Not so: a local part with ':' is cut and variables in it are not expanded; a column called _row or _name makes expand raise TypeError; a URL containing a namespace twice is shortened twice, so that different URLs can collide.)", "quantifier": "all templates, rows, tables, locations and URLs", "why_tests_cant": "unboundedly many templates and URLs; injectivity is a statement about all pairs", "anchors": ["src/csvw/metadata.py:TableLike.expand", "src/csvw/metadata.py:Link.resolve", "src/csvw/metadata.py:NAMESPACES", "src/csvw/utils.py:qname2url"]}
{"id": "C57", "title": "Formats of strings are regular expressions", "statement": "A cell of datatype string (or QName, gDay, gMonth, gMonthDay, gYear, gYearMonth, xml, html) with a format that is a regular expression is read, unchanged, iff the whole cell - or all of it but one newline at the end - matches the expression; any other cell is a ValueError. In particular every alternative of the format has to match the whole cell. NMTOKEN and anyURI make the same check first; a duration is only checked at its start. Without a format, and with one that is not a regular expression, every cell is accepted. (Not so: a newline at the end is not checked; a format with a back reference is dropped; unbalanced brackets such as 'a)|(b' are not noticed; the format of a normalizedString has no effect.)", "quantifier": "all regular expressions (of characters, sets, classes, groups, alternatives, quantifiers, ^ and $), all spellings of them, all cells", "why_tests_cant": "unboundedly many expressions and cells", "anchors": ["src/csvw/datatypes.py:string.derived_description", "src/csvw/datatypes.py:string.to_python", "src/csvw/datatypes.py:anyURI.to_python", "src/csvw/datatypes.py:NMTOKEN.to_python", "src/csvw/datatypes.py:normalizedString.to_python", "src/csvw/datatypes.py:duration.to_python"]}
{"id": "C58", "title": "JSON cells and JSON files", "statement": "A JSON text (a cell of datatype json, a metadata file) is read iff it is a text of the JSON grammar (with NaN and the infinities), as the value it denotes - repeated keys keep their first place and their last value -, and is a ValueError otherwise. What is written for a value, on one line or indented, is read back as the same value with the keys in the same order; different values have different texts; a cell is one line of printable ASCII characters. A cell of datatype json with a JSON schema as format is read iff it is a JSON text and its value satisfies the schema; a format that is no schema is ignored. (Not so: the schema 'false' is ignored; a str holding the two halves of a surrogate pair comes back as one character; a repeated key loses a value silently.)", "quantifier": "all texts, all JSON values of any depth, both layouts, all schemas", "why_tests_cant": "unboundedly many and unboundedly nested texts and values", "anchors": ["src/csvw/datatypes.py:json.to_python", "src/csvw/datatypes.py:json.to_string", "src/csvw/datatypes.py:json.derived_description", "src/csvw/metadata.py:get_json", "src/csvw/metadata.py:TableLike.to_file"]}
{"id": "C59", "title": "Markdown description of a dataset", "statement": "csvw2markdown (metadata2markdown) of a group of tables whose texts have no line breaks or vertical bars (descriptions may have line breaks) is a document with the title, the description and image in full, a row for each other property that is not empty, and a section for each table in order; a section has an anchor, the description, image, properties and dialect of the table, and one row of exactly three cells for each column in order: its name (linked to its property URL), its own datatype with choices or regular expression, bounds and separator, and its description, 'Primary key' iff it is in the primary key, and a link iff a foreign key has just this column; the link is the anchor of the section of the referenced table. There is such a document iff every table or the group has a dialect, descriptions are texts, images texts or objects, formats texts, and foreign keys of one column name a table and a column. (Not so: a group without dialect fails; a number format object fails; a minimum of 0, an inherited datatype and an image given by its URL are not shown; a regular expression with a vertical bar breaks its row; two tables can have the same anchor.)", "quantifier": "all groups of tables with any number of tables, columns, properties, nested property values, and foreign keys", "why_tests_cant": "unboundedly many groups, texts and nested values", "anchors": ["src/csvw/utils.py:metadata2markdown", "src/csvw/utils.py:qname2url", "src/csvw/utils.py:slug", "src/csvw/metadata.py:Description.inherit", "src/csvw/__main__.py:csvw2markdown"]}
{"id": "C60", "title": "What validation says about a table", "statement": "Reading a table for validation gives no error or warning iff the file can be read in its dialect, there are no more headers than columns, each header is the name of the column at its position, or a title in a language that fits the table, or the column is named and has no such title, each cell is valid for the column at its position and is not INF, -INF or NaN in a decimal column (these are read, with a warning, as are cells of boolean columns with a malformed format), and no required column or cell of a required column is missing; so a table without keys is valid iff moreover its metadata loads without warnings. The strict readings for key checks warn exactly about cells under headers that no column has and about such special cells.", "quantifier": "all files, dialects, columns, titles in any languages and datatypes", "why_tests_cant": "unboundedly many files and columns; the equivalence has a direction that says that nothing else is ever reported", "anchors": ["src/csvw/metadata.py:Table.iterdicts", "src/csvw/metadata.py:Table.check_primary_key", "src/csvw/metadata.py:Column.has_title", "src/csvw/metadata.py:CSVW.is_valid"]}
{"id": "C61", "title": "Lenient reading, and reading without column descriptions", "statement": "With strict=False, iterdicts yields every row of the file, in order and with its line number: cells belong to columns by position whatever the header says, cells beyond the columns are named _col.N, a cell that is not valid is given as its text (a list as the list of its texts), other regular columns are None, and virtual columns are computed in turn from what precedes them. A table without column descriptions yields, strict or not, the texts under the headers of the file; without a header, cells named _col.1, _col.2, ..., as many as the first row with cells has (so cells of longer rows that follow are lost).", "quantifier": "all files, dialects and column lists with distinct headers", "why_tests_cant": "unboundedly many files, rows, columns and cell texts", "anchors": ["src/csvw/metadata.py:Table.iterdicts", "src/csvw/metadata.py:Column.read"]}
{"id": "C62", "title": "Metadata takes effect", "statement": "Loading a table or a table group from JSON gives exactly what its JSON describes: url, dialect (own, linked, or the default values for what is missing or unsuitable), language, and one column per object in tableSchema/columns, in order, with key (name, else first title without language, else _col.N), virtual, required; required, null, separator and datatype are those of the nearest object - column, schema, table, group - that gives them ('null': [\"\"] counts as not given); default, valueUrl, propertyUrl are the column's own. Virtual columns come last and names are distinct, else nothing is loaded. A datatype reads a text by its name and format and accepts the value iff it satisfies the stated lengths and bounds; a number pattern with other characters is ignored. So a group loaded from JSON can be written, its metadata loaded again, and read: the rows are back.", "quantifier": "all JSON descriptions (unique keys) that load, all answers of the web for linked schemas and dialects", "why_tests_cant": "unboundedly many descriptions, levels and combinations of properties", "anchors": ["src/csvw/metadata.py:DescriptionBase.fromvalue", "src/csvw/metadata.py:Description.inherit", "src/csvw/metadata.py:Schema.fromvalue", "src/csvw/metadata.py:Column", "src/csvw/metadata.py:TableLike", "src/csvw/metadata.py:Datatype", "src/csvw/dsv_dialects.py:Dialect"]}
{"id": "C63", "title": "Warnings of loading", "statement": "A description (datatype, column, schema, dialect, table, table group) that is loaded from JSON gives no warning iff it is in order: all keys are properties of its class, contain ':' or start with '@'; '@id' and values of common properties are well-formed; the values of its properties have the types the code expects (listed per property, lists of such values included), language tags are valid, datatypes are known and their bounds and formats usual; column names have neither white space nor a leading underscore, the names-or-titles of the regular columns are distinct, the columns of the primary key have names, encodings are known; and the linked schema and dialect, the columns and the tables are in order themselves. So each defect of this list is reported and nothing else is. In particular a transformation as demanded by the standard is always reported, two columns with neither name nor title are reported as duplicates; a primary key of unknown columns, a 'required' that is no boolean, an unreachable schema and a list of separators are not.", "quantifier": "all JSON descriptions (unique keys) that load, all answers of the web for linked schemas and dialects", "why_tests_cant": "unboundedly many descriptions and combinations of defects; absence of warnings must be equivalent to a condition", "anchors": ["src/csvw/metadata.py:Description.partition_properties", "src/csvw/utils.py:converter", "src/csvw/metadata.py:Schema.__attrs_post_init__", "src/csvw/metadata.py:TableLike.__attrs_post_init__", "src/csvw/metadata.py:dialect_props", "src/csvw/metadata.py:valid_transformations", "src/csvw/metadata.py:converter_titles", "src/csvw/dsv_dialects.py:convert_encoding"]}
{"id": "C64", "title": "Verdict of csvwvalidate", "statement": "csvwvalidate URL-or-path, if the metadata can be loaded at all, prints OK and exits with 0 iff (a) no metadata that was located had to be ignored for not referring to the file, (b) the metadata - found at the place or located as in C53, with links to schemas resolved against '@base' or the URL if it comes from the web - is in order (C63), (c) the file of every table it describes, found relative to the base, can be read with the dialect described and its content is valid by the columns described, and (d) primary keys are unique and foreign keys are satisfied, not null and refer to unique keys. Otherwise it prints FAIL and exits with 1, or with 2 after a ValueError; --verbose only adds lines; any other exception is not handled. So an unreachable file gives a traceback rather than FAIL; the same group with foreign keys that refer to columns by their title is valid as local file and not on the web; surplus cells of a row are valid; and '@base' in the @context of a single table is applied twice when its foreign keys are checked.", "quantifier": "all metadata (JSON with unique keys), all files and archives, all answers of the web, all value types with an equality", "why_tests_cant": "the verdict must be an equivalence over unboundedly many metadata documents and files", "anchors": ["src/csvw/__main__.py:csvwvalidate", "src/csvw/metadata.py:CSVW.__init__", "src/csvw/metadata.py:CSVW.is_valid", "src/csvw/metadata.py:CSVW.tablegroup", "src/csvw/metadata.py:TableLike.from_url", "src/csvw/metadata.py:TableLike.base", "src/csvw/metadata.py:TableGroup.validate_schema"]}
{"id": "C65", "title": "csvw2sqlite keeps the data of a table group", "statement": "If csvw2sqlite METADATA OUTPUT succeeds, then reading the database with the same metadata gives, for each table described, its rows as read from the files: each row has the columns described, with the same values (None for columns it does not have), and for a list-valued foreign key the keys listed ([] for none); in the order of the files if the database returns rows as inserted. This supposes: names that are distinct (regardless of case, also with association tables) and usable in SQL; a primary key of one string column in tables with list-valued foreign keys; keys in lists without white space; values whose type converts faithfully (strings, integers, booleans and bytes always do); no null items in lists of strings; and that all rows have their keys in the order of the first row, up to keys with None. The latter holds if the file has its columns in the order described, or no line has more cells than the first; otherwise values end up in wrong columns, silently. If it fails before writing, an existing OUTPUT is untouched; if it fails while writing it is lost and a database without rows remains. Tables named force, self, _exists_ok or _skip_extra cannot be converted, and null items of lists come back as ''.", "quantifier": "all metadata documents, files, existing databases, orders in which the database returns rows, and oracles for datatypes", "why_tests_cant": "it composes reading of metadata and files with schema translation, SQL and reading back, for unboundedly many documents and rows", "anchors": ["src/csvw/__main__.py:csvw2sqlite", "src/csvw/db.py:Database.__init__", "src/csvw/db.py:Database.write_from_tg", "src/csvw/db.py:Database.write", "src/csvw/db.py:Database.read", "src/csvw/db.py:TableSpec.from_table_metadata", "src/csvw/metadata.py:TableGroup.read"]}
{"id": "C66", "title": "csvw2datasette keeps the data and the common properties, and never overwrites a database", "statement": "If csvw2datasette URL succeeds then no database existed in the output directory, and the database made holds the data of the tables found at URL: reading it back gives the rows as in C65 (under the same suppositions), for a table group and for a CSV file with metadata located for it. The metadata file, read as JSON, is an object that has exactly title, description and license with the values of dc:title, dc:description and dc:license of the description located, for those it has. An existing database is never changed: the command fails. If the command fails, the metadata file is untouched and a database it made has no rows; the metadata file is touched only when the database is complete. A second run in the same directory always fails, also after a failed first one that left an empty database. Success is not guaranteed: a CSV file without metadata (the default description has no columns) makes it fail and leaves a database that blocks later runs.", "quantifier": "all URLs, metadata documents, files, existing output directories, orders of rows and oracles for datatypes", "why_tests_cant": "it composes locating metadata, reading, schema translation, SQL, and writing of JSON, and speaks about every point of failure", "anchors": ["src/csvw/__main__.py:csvw2datasette", "src/csvw/db.py:Database.write_from_tg", "src/csvw/metadata.py:CSVW.__init__", "src/csvw/metadata.py:CSVW.common_props"]}
{"id": "C67", "title": "csvwdescribe prints metadata of the data package described", "statement": "What csvwdescribe prints is the JSON of a table group that has exactly one table for each tabular resource of the package the command frictionless describes, in order: the path is the url, and there is one column per field, in order, with its name and with the type the Frictionless type stands for. For one CSV file without '*' the package is the one resource frictionless describes. Reading the printed text gives this group again, apart from dialects that are the default one, which are lost (provided the group can be serialised, C35, and its strings can be written in JSON, C58). The command is called for these files in their order, for CSV if it is one file without '*' and else for a package, with a dialect exactly if a delimiter is given and not empty. A delimiter reaches frictionless as it is if all its characters are plain - no quotation mark, backslash or control character - and a single character only then: with a tab, the argument is not JSON.", "quantifier": "all outputs of the command frictionless, lists of files, delimiters and oracles for datatypes", "why_tests_cant": "it composes an external description, the conversion of packages, building of descriptions, serialisation and JSON text, over unbounded packages", "anchors": ["src/csvw/__main__.py:csvwdescribe", "src/csvw/frictionless.py:DataPackage", "src/csvw/metadata.py:TableGroup.from_frictionless_datapackage"]}
{"id": "C68", "title": "add_foreign_key adds one key from columns of the table, and nothing else", "statement": "Table.add_foreign_key, given one column or a list of columns (strings) and a resource, succeeds exactly if each is the name property of a column of the table, and else raises ValueError (AttributeError if the table's schema could not be fetched). What succeeds adds exactly one foreign key, after the others, and changes nothing else of the table; the result is a table that could have been read from metadata, and that survives serialisation if the table does. Reading the table's data is unchanged, and the integrity check of a group with this table then succeeds exactly if it did before and the new key is satisfied (it resolves, its columns match, each row's reference is found, and the strict conditions). This is for strings: a tuple is accepted but gives a key whose only column is a list, and None is accepted if a column has no name.", "quantifier": "all tables read from metadata, lists of columns, resources, groups and their rows", "why_tests_cant": "it ranges over all descriptions, lists of columns and data of groups", "anchors": ["src/csvw/metadata.py:Table.add_foreign_key", "src/csvw/metadata.py:ForeignKey.fromdict", "src/csvw/metadata.py:TableGroup.check_referential_integrity"]}
{"id": "C69", "title": "csvw2json prints what metadata and files say", "statement": "Whenever csvw2json prints a text, it is the text of the following JSON, and reading it gives this JSON again. The metadata is that found for the URL (C53). The JSON has the common properties of a table group and, under tables, one object for each table of the metadata that is not suppressed, in order. Each has the URL of the table, resolved against the base that applies, its @id, its notes, its common properties, the comments of its file, and one object for each row of that file - the local one, the one in a zip archive, or the one on the web - read by the dialect that applies (C04, C62) without strictness (C61), as C51 says: with the URL of the row, its number, its titles, and its cells, where the URL templates, separators, null values, datatypes and suppression of columns are those of the members of the objects for the column, its schema, its table and the group. Values that JSON cannot express make the command fail: a date is written as text in a cell, but in a list or as the title of a row it is a TypeError.", "quantifier": "all URLs, metadata, webs and file systems, csv files of any size", "why_tests_cant": "it composes locating metadata, interpreting it, reading csv files, conversion and serialisation, over unbounded metadata and files", "anchors": ["src/csvw/__main__.py:csvw2json", "src/csvw/metadata.py:CSVW.__init__", "src/csvw/metadata.py:CSVW.to_json", "src/csvw/metadata.py:CSVW._table_to_json", "src/csvw/metadata.py:CSVW._row_to_json"]}
{"id": "C70", "title": "csvw2markdown shows what the metadata say", "statement": "Whenever csvw2markdown URL prints a text, there is a JSON object at URL, and the text, read as sections with tables (C59), shows what the object says: the title, the name of the file if it is local, the common properties of the group, with values normalised; and for each object under tables, in order, a section with its URL, a link to the file exactly if the metadata are local and the file is there, its common properties, its dialect as the settings that differ from the defaults, which, read as a dialect again, is the one described, and a row for each of its columns, those of its schema, in order, with name, property URL, separator, common properties and datatype (name, format as used, minimum and maximum) of its own object, its description saying whether it is in the primary key and what its foreign keys refer to. Not every valid description can be shown: without a dialect of the table or the group the command fails, and the table of metadata for a single table has no section.", "quantifier": "all URLs, metadata and webs", "why_tests_cant": "it composes locating metadata, interpreting it and rendering, over unbounded metadata", "anchors": ["src/csvw/__main__.py:csvw2markdown", "src/csvw/utils.py:metadata2markdown", "src/csvw/metadata.py:TableLike.from_file", "src/csvw/metadata.py:TableLike.from_url"]}
{"id": "C71", "title": "What is written is valid", "statement": "Tables that can be written so that they are read back (C27), whose columns have names (or titles in the language of the table), whose cells the validation does not warn of (INF, NaN), and whose keys name columns of the files, are written by Table.write; and is_valid of the group of tables with these files, just loaded without warnings, gives True exactly if, among the rows in memory, primary keys are unique and foreign keys are not null, refer to matching unique keys, and are satisfied. Without these conditions that is false: INF is written, and read back, but the table is not valid; so is a column without a name and with a title in another language.", "quantifier": "all groups of tables, with any dialects, columns, datatypes, rows and keys", "why_tests_cant": "it relates writing, reading and three validation passes over unbounded tables and groups", "anchors": ["src/csvw/metadata.py:Table.write", "src/csvw/metadata.py:Table.iterdicts", "src/csvw/metadata.py:TableGroup.check_referential_integrity", "src/csvw/metadata.py:CSVW.is_valid"]}
{"id": "C72", "title": "A written group is valid", "statement": "After TableGroup.write to a file in a directory wrote rows for all tables of the group, of different URLs, zipped or not, under the conditions of C71 (and, if zipped, without carriage returns and without the encoding UTF-8-BOM, C52), is_valid of the group read from there, if it was loaded without warnings, gives True exactly if primary keys are unique and foreign keys hold among the rows that were written.", "quantifier": "all groups of tables, rows, keys, directories and file systems, zipped or not", "why_tests_cant": "it relates writing of several files, archives, reading and validation over unbounded tables and groups", "anchors": ["src/csvw/metadata.py:TableGroup.write", "src/csvw/metadata.py:Table.write", "src/csvw/metadata.py:Table.iterdicts", "src/csvw/metadata.py:TableGroup.check_referential_integrity", "src/csvw/metadata.py:CSVW.is_valid"]}
