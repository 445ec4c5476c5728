{
 "claims": [
  {
   "property": "C01",
   "status": "proved",
   "theorems": [
    "c01_default_roundtrip",
    "c01_leading_bom_refuted"
   ],
   "note": "All rows, any interpreter version flags; the U+FEFF exception is exhibited."
  },
  {
   "property": "C02",
   "status": "proved",
   "theorems": [
    "c02_dialect_roundtrip",
    "c02_skip_initial_space",
    "c02_no_quotechar",
    "c02_skip_initial_space_refuted"
   ],
   "note": "doubleQuote=True dialects; the skipInitialSpace loss is characterised exactly and its round trip refuted."
  },
  {
   "property": "C03",
   "status": "proved",
   "theorems": [
    "c03_escape_before_3_10",
    "c03_escape_since_3_10",
    "c03_roundtrip_since_3_10_refuted"
   ],
   "note": "Both interpreter behaviours; the modern one refutes the round trip."
  },
  {
   "property": "C04",
   "status": "proved",
   "theorems": [
    "c04_reader_yields",
    "c04_reader_calls"
   ],
   "note": ""
  },
  {
   "property": "C05",
   "status": "proved",
   "theorems": [
    "c05_line_numbers",
    "c05_line_number_meaning",
    "c05_docstring_start_line_refuted"
   ],
   "note": "No escapechar (with an escapechar an escaped line break is not counted the same way)."
  },
  {
   "property": "C06",
   "status": "proved",
   "theorems": [
    "c06_dict_item",
    "c06_dict_item_lookup",
    "c06_dict_reader"
   ],
   "note": ""
  },
  {
   "property": "C07",
   "status": "proved",
   "theorems": [
    "c07_rewrite_result",
    "c07_rewrite_reads_back",
    "c07_rewrite_succeeds",
    "c07_failure_leaves_file",
    "c07_crash_safe_one_filesystem",
    "c07_safe_before_move",
    "c07_crash_safe_across_filesystems_refuted"
   ],
   "note": "Crash safety during the move itself holds only when the temp dir is on the same file system; the other case is refuted."
  },
  {
   "property": "C08",
   "status": "proved",
   "theorems": [
    "c08_add_rows",
    "c08_add_rows_history"
   ],
   "note": ""
  },
  {
   "property": "C09",
   "status": "proved",
   "theorems": [
    "c09_filter_rows",
    "c09_filter_rows_empty_file",
    "c09_count_is_rows_lost_refuted"
   ],
   "note": ""
  },
  {
   "property": "C10",
   "status": "proved",
   "theorems": [
    "c10_header_once_fresh",
    "c10_no_header_later"
   ],
   "note": ""
  },
  {
   "property": "C11",
   "status": "proved",
   "theorems": [
    "c11_asdict_roundtrip",
    "c11_attributes",
    "c11_typed",
    "c11_quotechar_list_refuted",
    "c11_keeps_valid",
    "c11_replaces_invalid",
    "c11_constructed_typed"
   ],
   "note": "codec lookup ('x'.encode(name)) is an oracle that knows utf-8. Full typing fails for list-valued quoteChar (c11_quotechar_list_refuted)."
  },
  {
   "property": "C12",
   "status": "proved",
   "theorems": [
    "c12_assign_then_use",
    "c12_updated",
    "c12_stale_cache_refuted",
    "c12_updated_unchecked_refuted",
    "c12_typed_params"
   ],
   "note": "the property as wished is refuted (c12_stale_cache_refuted); the true restriction is proved."
  },
  {
   "property": "C13",
   "status": "proved",
   "theorems": [
    "c13_slug_chars",
    "c13_slug_lowercase",
    "c13_slug_total",
    "c13_slug_errors",
    "c13_slug_ascii",
    "c13_normalize_valid",
    "c13_normalize_total",
    "c13_normalize_fixed",
    "c13_normalize_idempotent",
    "c13_normalize_keyword",
    "c13_normalize_refuted",
    "c13_normalize_control_refuted",
    "c13_named_tuples",
    "c13_named_tuples_unusable"
   ],
   "note": "Unicode tables (NFD, category, lower) are oracles constrained by unicode_ok; NamedTupleReader included."
  },
  {
   "property": "C14",
   "status": "proved",
   "theorems": [
    "c14_roundtrip",
    "c14_read_format",
    "c14_read_default",
    "c14_same_words_refuted"
   ],
   "note": "Base alphabet: any Python string; warnings are not modelled."
  },
  {
   "property": "C15",
   "status": "proved",
   "theorems": [
    "c15_read",
    "c15_roundtrip",
    "c15_long_refuted",
    "c15_inf_refuted"
   ],
   "note": "c15_long_refuted/c15_inf_refuted: more than 28 digits are rounded silently; INF raises OverflowError."
  },
  {
   "property": "C16",
   "status": "proved",
   "theorems": [
    "c16_roundtrip",
    "c16_specials",
    "c16_positive_exponent_refuted"
   ],
   "note": "c16_positive_exponent_refuted states exactly what comes back for positive exponents."
  },
  {
   "property": "C17",
   "status": "proved",
   "theorems": [
    "c17_chars",
    "c17_space_refuted",
    "c17_point_refuted"
   ],
   "note": "complete case analysis for all group/decimal characters; c17_space_refuted, c17_point_refuted are the failures."
  },
  {
   "property": "C18",
   "status": "proved",
   "theorems": [
    "c18_percent",
    "c18_double_percent_refuted"
   ],
   "note": ""
  },
  {
   "property": "C19",
   "status": "proved",
   "theorems": [
    "c19_plain",
    "c19_grouped",
    "c19_read",
    "c19_exponent",
    "c19_exponent_grouped",
    "c19_decimal_no_exponent",
    "c19_float",
    "c19_exponent_no_point_refuted",
    "c19_exponent_sign_refuted",
    "c19_zero_padding_refuted"
   ],
   "note": "plain and grouped patterns of the stated shapes, each with and without an exponent part after a fraction; Python's float is a parameter."
  },
  {
   "property": "C20",
   "status": "proved",
   "theorems": [
    "c20_hex_roundtrip",
    "c20_hex_valid",
    "c20_hex_invalid",
    "c20_base64_roundtrip",
    "c20_base64_ignores"
   ],
   "note": ""
  },
  {
   "property": "C21",
   "status": "proved",
   "theorems": [
    "c21_formats",
    "c21_parse",
    "c21_extra_digits",
    "c21_trailing_text_refuted",
    "c21_empty_format_refuted"
   ],
   "note": "exactly the accepted formats; parsing via regex and datetime constructor. isoparse is an oracle, timezones are not modelled. c21_trailing_text_refuted: no end anchor."
  },
  {
   "property": "C22",
   "status": "proved",
   "theorems": [
    "c22_normalized",
    "c22_keeps",
    "c22_nmtoken"
   ],
   "note": ""
  },
  {
   "property": "C23",
   "status": "proved",
   "theorems": [
    "c23_validate",
    "c23_types",
    "c23_constructor",
    "c23_constructor_complete",
    "c23_lengths_meetable",
    "c23_minimum_maximum_refuted",
    "c23_zero_bounds_refuted",
    "c23_duration_refuted",
    "c23_nan_refuted"
   ],
   "note": "generic in the value type; c23_*_refuted are the documented exceptions."
  },
  {
   "property": "C24",
   "status": "proved",
   "theorems": [
    "c24_read",
    "c24_separator",
    "c24_required_never_none"
   ],
   "note": "read characterised by an inductive spec independent of the code order; required never yields None in any mode"
  },
  {
   "property": "C25",
   "status": "proved",
   "theorems": [
    "c25_scalar",
    "c25_typed",
    "c25_numbers",
    "c25_string",
    "c25_none",
    "c25_none_in_list_column",
    "c25_list",
    "c25_string_list",
    "c25_number_list",
    "c25_long_separator_refuted",
    "c25_null_number_refuted"
   ],
   "note": "exact conditions for scalars, strings, None, lists; refuted variants for multi-char separators and numeric null values"
  },
  {
   "property": "C26",
   "status": "proved",
   "theorems": [
    "c26_inherit",
    "c26_settings",
    "c26_default_refuted",
    "c26_lang_refuted",
    "c26_null_refuted"
   ],
   "note": "nearest-ancestor semantics of inherit; default/lang/null exceptions refuted"
  },
  {
   "property": "C27",
   "status": "proved",
   "theorems": [
    "c27_write_read"
   ],
   "note": "For every dialect, schema and list of complete dicts whose values survive their columns (C25), reading the written file gives them back; virtual columns may add keys."
  },
  {
   "property": "C28",
   "status": "proved",
   "theorems": [
    "c28_isolated",
    "c28_without_bad_rows",
    "c28_overflow_refuted",
    "c28_surplus_cells_refuted"
   ],
   "note": "With and without log; messages are exactly those of the bad/missing cells in order. _refuted: exceptions other than ValueError (integer \"INF\") are not isolated; surplus cells are dropped silently."
  },
  {
   "property": "C29",
   "status": "proved",
   "theorems": [
    "c29_order"
   ],
   "note": "Any permutation of the header, strict mode, with or without log."
  },
  {
   "property": "C30",
   "status": "proved",
   "theorems": [
    "c30_all_keys",
    "c30_required_missing",
    "c30_required_not_none",
    "c30_inherited_required_refuted",
    "c30_virtual_required_refuted"
   ],
   "note": "Keys for all regular columns; own required columns enforced. _refuted: inherited required is not enforced for missing columns/cells; a required virtual column makes files unreadable."
  },
  {
   "property": "C31",
   "status": "proved",
   "theorems": [
    "c31_write",
    "c31_strict",
    "c31_strict_overwrites"
   ],
   "note": "Exact characterisation of success; strict mode; what is left in the file on failure."
  },
  {
   "property": "C32",
   "status": "proved",
   "theorems": [
    "c32_keys",
    "c32_log",
    "c32_nolog",
    "c32_list_key_refuted"
   ],
   "note": "With and without log, for any equality of scalars that is an equivalence. _refuted: list-valued keys raise TypeError."
  },
  {
   "property": "C33",
   "status": "proved",
   "theorems": [
    "c33_verdict",
    "c33_log",
    "c33_nolog",
    "c33_strict_null",
    "c33_schema",
    "c33_usable",
    "c33_unknown_table_refuted",
    "c33_titles_refuted",
    "c33_none_in_list_refuted"
   ],
   "note": "Findings: with a log an unknown referenced table raises KeyError after the message; titles pass validate_schema and then raise KeyError; None inside a list-valued key counts as a missing key."
  },
  {
   "property": "C34",
   "status": "proved",
   "theorems": [
    "c34_constructed",
    "c34_otherwise_valueerror",
    "c34_warnings",
    "c34_empty_titles_refuted",
    "c34_virtual_names_refuted",
    "c34_spurious_warning_refuted"
   ],
   "note": "The exact set of accepted column lists, and of lists that give each warning, is characterised. Headers for the duplicate check are computed before columns are numbered, so two nameless, titleless columns are reported as duplicates (c34_spurious_warning_refuted); empty titles and virtual columns depart from the English too (_refuted)."
  },
  {
   "property": "C35",
   "status": "proved",
   "theorems": [
    "c35_datatype",
    "c35_column",
    "c35_schema",
    "c35_dialect",
    "c35_table",
    "c35_group",
    "c35_default_dialect_lost",
    "c35_group_default_dialects",
    "c35_empty_values_lost_refuted",
    "c35_falsy_suppress_refuted",
    "c35_datatype_full_refuted",
    "c35_invalid_template_refuted",
    "c35_datatype_settles",
    "c35_column_settles",
    "c35_schema_settles",
    "c35_table_settles",
    "c35_group_settles",
    "c35_group_stable"
   ],
   "note": "Proved for Datatype, Column, Schema, Dialect, Table and TableGroup built from JSON, for objects meeting the explicit conditions of DescrSpec.v (no value that is [] or {} outside \"null\", bounds re-read from their formatted text, dialect not the default one). Without these conditions the claim is refuted by the _refuted theorems; c35_default_dialect_lost proves exactly what happens to an explicit default dialect. c35_group_default_dialects (Props_Describe.v) extends this to groups whose tables, or which themselves, have explicit default dialects. c35_*_settles (Props_Settle.v) need no such conditions: for any description read from metadata they say what becomes of each attribute when it is serialised and read again (SettleSpec.v: it is the same, or it is not written and the default is read), at all levels, and that the serialisation of that is the same JSON (c35_group_stable); assumed is only that bounds can be read from their formatted form, that datatype formats are not [] or {} and that an \"@id\" taken from \"@base\" is one."
  },
  {
   "property": "C36",
   "status": "proved",
   "theorems": [
    "c36_roundtrip",
    "c36_add",
    "c36_history",
    "c36_und_refuted",
    "c36_bad_lang_refuted"
   ],
   "note": ""
  },
  {
   "property": "C37",
   "status": "proved",
   "theorems": [
    "c37_order",
    "c37_when",
    "c37_too_many",
    "c37_name_clash_refuted"
   ],
   "note": "Proved; \"every table\" needs that no association table has the name of another table (c37_name_clash_refuted)."
  },
  {
   "property": "C38",
   "status": "proved",
   "theorems": [
    "c38_clauses",
    "c38_single",
    "c38_composite_refuted"
   ],
   "note": "The clause has the meaning of the CSVW key exactly if sorting keeps the column pairs together (c38_clauses); refuted in general by c38_composite_refuted."
  },
  {
   "property": "C39",
   "status": "proved",
   "theorems": [
    "c39_file",
    "c39_order",
    "c39_memory",
    "c39_basic",
    "c39_schema"
   ],
   "note": "Write then read over the SQLite specification (Sqlite.v), for any set of tables and rows meeting tables_ok/rows_ok/lists_ok (DbWriteSpec.v); c39_basic: no condition on datatypes.py/float/JSON for string, integer, boolean, bytes and list-of-string columns; c39_order: same order if the database scans in insertion order. Examples refute it for keys in another order, lists containing only an empty string, columns of type time, list-valued primary keys."
  },
  {
   "property": "C40",
   "status": "proved",
   "theorems": [
    "c40_lists",
    "c39_file",
    "c39_order"
   ],
   "note": "Each list-valued foreign key gives back exactly the keys written for that row and column (up to the order in which SQLite groups). c40_space_refuted: keys with whitespace come back in parts."
  },
  {
   "property": "C41",
   "status": "proved",
   "theorems": [
    "c41_names",
    "c41_backtick",
    "c41_null",
    "c41_create",
    "c41_insert",
    "c41_select",
    "c41_group",
    "c41_backtick_select"
   ],
   "note": "Proved for names, CREATE TABLE, INSERT and SELECT statements, for a specification of the SQL tokenizer and grammar (Sql.v); names with a backtick never denote themselves (c41_backtick). Bounds that are no numbers and contexts with quotes break the SQL (c41_bound_refuted, c41_context_refuted)."
  },
  {
   "property": "C42",
   "status": "proved",
   "theorems": [
    "c42_row",
    "c42_insert"
   ],
   "note": "c42_row: for the table created by the generated SQL, over the SQLite specification; assumptions on floats (reals) and on date()/datetime() (dates) are hypotheses, shown satisfiable (exact_reals, exact_dates). Refutations: int and other numeric types (compared as text), decimal bounds above 2^53, lengths of lists, base64Binary, null characters."
  },
  {
   "property": "C43",
   "status": "proved",
   "theorems": [
    "c43_failed",
    "c43_all_or_nothing",
    "c43_exists",
    "c43_force_loses",
    "c43_memory",
    "c43_memory_log"
   ],
   "note": "Proved for the write protocol of db.py over a specification of SQLite tables, constraints and transactions (Sqlite.v): a failed write leaves no rows, and no intermediate state on disk has any (all failure points). Noted: with force the old file is lost; rows retried one by one can be stored twice (c43_retry_refuted, an Example)."
  },
  {
   "property": "C44",
   "status": "proved",
   "theorems": [
    "c44_succeeds",
    "c44_fails",
    "c44_simplifies",
    "c44_simple",
    "c44_idempotent",
    "c44_native_value_refuted",
    "c44_nested_id_refuted",
    "c44_two_types_refuted"
   ],
   "note": "to_json on JSON trees: success/failure, result relation, simplicity, idempotence; refuted: native @value, nested @id, rdf:type together with @type"
  },
  {
   "property": "C45",
   "status": "proved",
   "theorems": [
    "c45_row",
    "c45_single_values",
    "c45_list_values",
    "c45_subjects",
    "c45_mixed_refuted",
    "c45_lists_shared_refuted",
    "c45_row_lost_refuted"
   ],
   "note": "group_triples; the RDF graph serialization (rdflib) is a parameter; refuted: mixed values, lists shared between subjects, row without @id and several subjects"
  },
  {
   "property": "C46",
   "status": "proved",
   "theorems": [
    "c46_succeeds",
    "c46_field",
    "c46_required_ignored",
    "c46_column_not_required"
   ],
   "note": "str() of non-string JSON values is an uninterpreted function. Refuted: 'required' is lost (c46_required_lost); a year with a minimum is rejected (c46_year_refuted)."
  },
  {
   "property": "C47",
   "status": "proved",
   "theorems": [
    "c47_verdict",
    "c47_duplicate_refuted"
   ],
   "note": "True exactly under the stated conditions, plus: the strict readings of the key checks must not warn. Finding: duplicate primary keys and violated references raise ValueError instead of returning False."
  },
  {
   "property": "C48",
   "status": "proved",
   "theorems": [
    "c48_partition",
    "c48_every_key_once",
    "c48_unchanged",
    "c48_nonstrict",
    "c48_not_an_object",
    "c48_common_property",
    "c48_errors"
   ],
   "note": "Proved with corrections: non-string @id becomes None and invalid @language is removed inside common properties, each with a warning. Findings: keys common_props/at_props raise TypeError; a float @value with @type/@language is refused."
  },
  {
   "property": "C49",
   "status": "proved",
   "theorems": [
    "c49_framed",
    "c49_once",
    "c49_all",
    "c49_cycle_refuted",
    "c49_self_refuted"
   ],
   "note": "frame on flat graphs; refuted for cyclic references (items lost)"
  },
  {
   "property": "C50",
   "status": "proved",
   "theorems": [
    "c50_package",
    "c50_schema"
   ],
   "note": "Up to TableGroup.fromvalue(md), which is C35/C48. json.dumps is uninterpreted. Refuted: a reference without 'resource' is a KeyError (c50_self_refuted)."
  },
  {
   "property": "C51",
   "status": "proved",
   "theorems": [
    "c51_table",
    "c51_group",
    "c51_plain",
    "c51_minimal"
   ],
   "note": "Table.expand, format_value of scalars and rdflib are uninterpreted functions (record json_fns); iterdicts is the model of C27. Proved for successful conversions; for tables without templates success is characterised too (c51_plain). Refuted parts: c51_*_refuted."
  },
  {
   "property": "C52",
   "status": "proved",
   "theorems": [
    "c52_same",
    "c52_precedence",
    "c52_write",
    "c52_write_read",
    "c52_cr_refuted"
   ],
   "note": "Files are decoded texts; compression and codecs are not modelled. The text file itself is written non-atomically: crash points start when it is complete."
  },
  {
   "property": "C53",
   "status": "proved",
   "theorems": [
    "c53_remote",
    "c53_refers",
    "c53_unique",
    "c53_local",
    "c53_explicit",
    "c53_checked",
    "c53_total",
    "c53_link_without_type_refuted",
    "c53_csv_that_is_json_refuted",
    "c53_context_is_substring_refuted",
    "c53_local_unchecked_refuted",
    "c53_local_no_metadata_refuted",
    "c53_remote_no_metadata"
   ],
   "note": "HTTP, the JSON parser, URL resolution and URI templates are arbitrary functions; the construction of Table/TableGroup from the metadata is C48."
  },
  {
   "property": "C54",
   "status": "proved",
   "theorems": [
    "c54_literal",
    "c54_literal_unique",
    "c54_no_column",
    "c54_date_read_back",
    "c54_time_read_back",
    "c54_datetime_read_back",
    "c54_distinct",
    "c54_scalar",
    "c54_total",
    "c54_kept",
    "c54_fraction_and_zone_refuted",
    "c54_inherited_datatype_refuted",
    "c54_list_refuted"
   ],
   "note": "float(Decimal), Datatype.formatted for durations and bytes, rfc3986, dateutil's isoparse and timezone parsing are parameters/assumed; datetime.isoformat is modelled."
  },
  {
   "property": "C55",
   "status": "proved",
   "theorems": [
    "c55_location",
    "c55_write",
    "c55_write_fails",
    "c55_interrupted",
    "c55_read",
    "c55_round_trip",
    "c55_copy",
    "c55_copy_missing",
    "c55_same_object_refuted",
    "c55_same_url_refuted",
    "c55_missing_directory_refuted",
    "c55_copy_zipped_refuted",
    "c55_copy_base_refuted"
   ],
   "note": "Paths are POSIX paths compared as text (no symbolic links, no '..'); directories do not change; json.dump/load, urljoin, requests are parameters; that fromvalue(asdict(g)) is g is a hypothesis here (C35)."
  },
  {
   "property": "C56",
   "status": "proved",
   "theorems": [
    "c56_qname",
    "c56_local",
    "c56_url",
    "c56_short",
    "c56_injective",
    "c56_invalid",
    "c56_qname2url",
    "c56_colon_refuted",
    "c56_reserved_refuted",
    "c56_twice_refuted"
   ],
   "note": "uritemplate expansion and urljoin are parameters; paths are POSIX paths as in C55."
  },
  {
   "property": "C57",
   "status": "proved",
   "theorems": [
    "c57_format",
    "c57_every_regex",
    "c57_notation",
    "c57_language",
    "c57_no_format",
    "c57_nmtoken",
    "c57_uri",
    "c57_duration",
    "c57_newline_refuted",
    "c57_backref_refuted",
    "c57_brackets_refuted",
    "c57_normalized_refuted",
    "c57_duration_refuted",
    "c57_duration_no_format"
   ],
   "note": "Python's re is modelled (parser and backtracking matcher, checked against Python 3.11 on about 7500 random patterns); lookaround, flags, named groups, possessive quantifiers, numeric escapes and back references to complete groups are not. The characters of the classes d, s, w are parameters."
  },
  {
   "property": "C58",
   "status": "proved",
   "theorems": [
    "c58_loads",
    "c58_one_meaning",
    "c58_roundtrip",
    "c58_distinct",
    "c58_cell_ascii",
    "c58_cell_read",
    "c58_cell_roundtrip",
    "c58_metadata_file",
    "c58_schema_false_refuted",
    "c58_surrogates_refuted",
    "c58_repeated_key_refuted"
   ],
   "note": "Python's json module is modelled (encoder and scanner; checked against Python 3.11 on about 5200 random values and texts). repr(float(t)), jsonschema are parameters; the recursion limit and the digit limit of int are not modelled."
  },
  {
   "property": "C59",
   "status": "proved",
   "theorems": [
    "c59_document",
    "c59_renders",
    "c59_links",
    "c59_no_dialect_refuted",
    "c59_format_object_refuted",
    "c59_minimum_zero_refuted",
    "c59_regex_bar_refuted",
    "c59_anchors_refuted",
    "c59_inherited_refuted",
    "c59_image_refuted"
   ],
   "note": "str() of property values and of minimum/maximum, the Unicode tables and the existence of files are parameters. The document is read back by a small reader of lines and cells (MarkdownSpec.v), not by a Markdown implementation."
  },
  {
   "property": "C60",
   "status": "proved",
   "theorems": [
    "c60_table",
    "c60_valid",
    "c60_unknown_headers",
    "c60_warned_texts"
   ],
   "note": "Datatype parsing is a parameter (scalars); that it gives cell_reads is C01-C33; what the modelled types warn of is c60_warned_texts. URI template expansion is assumed total. Separators are not empty."
  },
  {
   "property": "C61",
   "status": "proved",
   "theorems": [
    "c61_lenient",
    "c61_no_columns",
    "c61_no_header",
    "c61_wider_rows_refuted"
   ],
   "note": "Cells fail with ValueError only, nothing required is missing (otherwise the reading raises), headers are distinct and computed columns have no cells of their own (hypotheses). URI template expansion is a total parameter."
  },
  {
   "property": "C62",
   "status": "proved",
   "theorems": [
    "c62_table",
    "c62_group",
    "c62_datatype",
    "c62_dialect",
    "c62_dialect_default",
    "c62_plain_column",
    "c62_files",
    "c62_title_language_refuted",
    "c62_default_inherited_refuted",
    "c62_null_undone_refuted",
    "c62_lineTerminators_refuted"
   ],
   "note": "A link to a schema that cannot be followed, separators and quoteChars that are lists, keys that are not strings and templates that are not strings are outside of the model (OtherError). Parsing of a text by type name and format, codecs, language tags and the web are oracles. The refuted theorems show where values in the JSON have no effect."
  },
  {
   "property": "C63",
   "status": "proved",
   "theorems": [
    "c63_group",
    "c63_table",
    "c63_schema",
    "c63_column",
    "c63_datatype",
    "c63_dialect",
    "c63_transformations_warn"
   ],
   "note": "Warnings given before an exception ends the loading are not modelled. Whether parsing a bound or deriving a format warns is an oracle (w_noisy, w_odd_format), as are codecs, language tags and the web."
  },
  {
   "property": "C64",
   "status": "proved",
   "theorems": [
    "c64_verdict",
    "c64_codes",
    "c64_exceptions",
    "c64_missing_file_refuted",
    "c64_place_refuted",
    "c64_code_refuted",
    "c64_surplus_cells_refuted",
    "c64_base_twice_refuted"
   ],
   "note": "Composition of C04, C33, C47, C53, C60, C62, C63. The web, JSON, urljoin, URI templates (total) and parsing of datatypes are oracles. Warnings are modelled as far as C60 and C63 do; metadata with values that the models of reading do not have (see Load.v) counts as not loadable."
  },
  {
   "property": "C65",
   "status": "proved",
   "theorems": [
    "c65_round_trip",
    "c65_order",
    "c65_failures",
    "c65_steps",
    "c65_first_row_refuted",
    "c65_null_items_refuted",
    "c65_argument_names_refuted",
    "c65_overwrite_refuted"
   ],
   "note": "Composition of C62 (descriptions), C29 (reading), C38 (schema), C39/C40 (database round trip), C43 (failures). SQLite is the model of Sqlite.v with oracles as in C39; parsing of datatypes is an oracle with `types_fit`. The output is supposed to be another file than the inputs."
  },
  {
   "property": "C66",
   "status": "proved",
   "theorems": [
    "c66_round_trip",
    "c66_order",
    "c66_metadata",
    "c66_existing",
    "c66_failures",
    "c66_complete_first",
    "c66_once",
    "c66_plain_csv_refuted",
    "c66_retry_refuted",
    "c66_names_refuted",
    "c66_prefix_refuted"
   ],
   "note": "Composition of C53 (locating metadata), C62, C65 and C58 (JSON text). The hints printed for the user are not modelled. Refuted counterparts: plain CSV, retry after failure, names read differently, prefixes of common properties."
  },
  {
   "property": "C67",
   "status": "proved",
   "theorems": [
    "c67_printed",
    "c67_delimiter",
    "c67_delimiter_char",
    "c67_delimiter_refuted"
   ],
   "note": "Composition of C46, C50 (conversion), C35 (serialisation, extended to groups with default dialects: c35_group_default_dialects) and C58 (JSON text). The command frictionless is an oracle; copying a DataPackage and its directory are not modelled."
  },
  {
   "property": "C68",
   "status": "proved",
   "theorems": [
    "c68_added",
    "c68_accepted",
    "c68_unfetched",
    "c68_loaded",
    "c68_checked",
    "c68_tuple_refuted",
    "c68_none_refuted"
   ],
   "note": "For columns given as strings or lists of strings; tuples and None are accepted by the code and give useless keys (c68_tuple_refuted, c68_none_refuted). c68_checked is on tables as the checks see them; c68_loaded shows that loading the new table gives the old one with the key."
  },
  {
   "property": "C69",
   "status": "proved",
   "theorems": [
    "c69_printed",
    "c69_dates_refuted"
   ],
   "note": "Composition of C53, C62 (and the values of a description that are not inherited by rows, level_says), C04, C61, C51 and C58. URL templates, formatting of values and the RDF graph are oracles as in C51; rowTitles other than strings are not modelled."
  },
  {
   "property": "C70",
   "status": "proved",
   "theorems": [
    "c70_shown",
    "c70_no_dialect_refuted",
    "c70_single_table_refuted"
   ],
   "note": "Composition of get_json (C53), from_url (C64), C62 and C59. The text is related to the metadata by the records of C59 (group_read, then document_says, for tidy groups as in C59). Python's str of numbers and existence of files are oracles."
  },
  {
   "property": "C71",
   "status": "proved",
   "theorems": [
    "c71_valid",
    "c71_special_refuted",
    "c71_title_refuted"
   ],
   "note": "Composition of C27 (write_read), C60 (lax_iff), C47 (is_valid_iff), for tables read from the files written. The right-hand side is stated of the rows in memory (in_memory), with the vocabulary of C32, C33."
  },
  {
   "property": "C72",
   "status": "proved",
   "theorems": [
    "c72_group",
    "c72_round_trip"
   ],
   "note": "C71 with the files, archives and locations of C55 and C52. The tables with their keys (from_files) are described by the group (describes); that loading the metadata gives the same description is the hypothesis same_description, as in C55 (C35, C46 are about it). c72_group: whenever the write succeeded; c72_round_trip: it does, and the metadata file is read back."
  }
 ]
}