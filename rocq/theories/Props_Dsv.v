(** Property theorems C01-C10 (dsv.py).  Only statements; proofs are lemmas elsewhere.
    Vocabulary: DsvSpec.v. *)
From Verif Require Import PyStr PyCsv Dsv DsvSpec DsvProofs DsvProofs2 DsvProofs3 DsvProofs4 DsvProofs5 DsvExamples.

(** * C01 *)
Theorem c01_default_roundtrip : forall pv lim rows,
  cells_within lim (texts rows) -> no_leading_bom (texts rows) ->
  exists t, write_file pv lim None kw0 rows = Ok t
            /\ unicode_reader lim None kw0 t = Ok (texts rows, None).
Proof. exact default_roundtrip. Qed.
Print Assumptions c01_default_roundtrip.

(** without the hypothesis on U+FEFF it fails *)
Theorem c01_leading_bom_refuted : exists rows t,
  cells_within 131072 (texts rows)
  /\ write_file py_modern 131072 None kw0 rows = Ok t
  /\ unicode_reader 131072 None kw0 t <> Ok (texts rows, None).
Proof. exact leading_bom_witness. Qed.
Print Assumptions c01_leading_bom_refuted.

(** * C02 *)
Theorem c02_dialect_roundtrip : forall pv lim d dl q term rows,
  sane_dialect d dl q term -> d_doubleQuote d = true -> d_skipInitialSpace d = false ->
  quote_crlf pv = true \/ term = [CR; LF] ->
  cells_within lim (texts rows) -> bom_safe d rows ->
  exists t, write_file pv lim (Some d) kw0 rows = Ok t
    /\ (forall kept, Selected (fun lr => ~ row_is_dropped d lr) (number_rows 0 (texts rows)) kept ->
        unicode_reader lim (Some d) kw0 t = Ok (map (fun lr => presented d (snd lr)) kept, None))
    /\ (keeps_everything d -> unicode_reader lim (Some d) kw0 t = Ok (texts rows, None)).
Proof. exact dialect_roundtrip. Qed.
Print Assumptions c02_dialect_roundtrip.

(** with or without skipInitialSpace: what csv.reader delivers *)
Theorem c02_skip_initial_space : forall pv lim d dl q term rows,
  sane_dialect d dl q term -> d_doubleQuote d = true ->
  quote_crlf pv = true \/ term = [CR; LF] ->
  cells_within lim (texts rows) -> bom_safe d rows ->
  exists t, write_file pv lim (Some d) kw0 rows = Ok t
    /\ reader_rows lim (Some d) kw0 t = Ok (map (map (skip_back d dl q)) (texts rows), None).
Proof. exact dialect_rows_roundtrip. Qed.
Print Assumptions c02_skip_initial_space.

Theorem c02_skip_initial_space_refuted : exists d dl q term rows t,
  sane_dialect d dl q term /\ keeps_everything d /\ d_doubleQuote d = true
  /\ write_file py_modern 131072 (Some d) kw0 rows = Ok t
  /\ unicode_reader 131072 (Some d) kw0 t <> Ok (texts rows, None).
Proof. exact skip_initial_space_witness. Qed.
Print Assumptions c02_skip_initial_space_refuted.

(** quoteChar = null: whatever could be written comes back *)
Theorem c02_no_quotechar : forall pv lim d dl term more rows t,
  d_delimiter d = [dl] -> d_quoteChar d = None -> d_lineTerminators d = term :: more ->
  standard_terminator term -> no_linebreak_char dl -> dl <> BOM -> d_skipInitialSpace d = false ->
  quote_crlf pv = true \/ term = [CR; LF] ->
  cells_within lim (texts rows) -> bom_safe d rows ->
  write_file pv lim (Some d) kw0 rows = Ok t ->
  reader_rows lim (Some d) kw0 t = Ok (texts rows, None).
Proof. exact dialect_noquote_roundtrip. Qed.
Print Assumptions c02_no_quotechar.

(** * C03 *)
Theorem c03_escape_before_3_10 : forall pv lim d dl q term rows,
  esc_esc pv = false ->
  sane_dialect d dl q term -> d_doubleQuote d = false -> dl <> 92 -> q <> 92 ->
  d_skipInitialSpace d = false ->
  quote_crlf pv = true \/ term = [CR; LF] ->
  (forall row s, In row rows -> In (COther s) row -> ~ In 92 s) ->
  cells_within lim (texts rows) -> bom_safe d rows ->
  exists t, write_file pv lim (Some d) kw0 rows = Ok t
    /\ reader_rows lim (Some d) kw0 t = Ok (texts rows, None).
Proof. exact escape_roundtrip_old. Qed.
Print Assumptions c03_escape_before_3_10.

Theorem c03_escape_since_3_10 : forall pv lim d dl q term rows,
  esc_esc pv = true ->
  sane_dialect d dl q term -> d_doubleQuote d = false -> dl <> 92 -> q <> 92 ->
  d_skipInitialSpace d = false ->
  quote_crlf pv = true \/ term = [CR; LF] ->
  cells_within lim (map (map esc_text) rows) -> bom_safe d rows ->
  exists t, write_file pv lim (Some d) kw0 rows = Ok t
    /\ reader_rows lim (Some d) kw0 t = Ok (map (map esc_text) rows, None).
Proof. exact escape_roundtrip_new. Qed.
Print Assumptions c03_escape_since_3_10.

Theorem c03_roundtrip_since_3_10_refuted : exists d dl q term rows t,
  sane_dialect d dl q term /\ keeps_everything d /\ d_doubleQuote d = false /\ d_skipInitialSpace d = false
  /\ write_file py_modern 131072 (Some d) kw0 rows = Ok t
  /\ unicode_reader 131072 (Some d) kw0 t <> Ok (texts rows, None).
Proof. exact escape_witness. Qed.
Print Assumptions c03_roundtrip_since_3_10_refuted.

(** * C04 *)
Theorem c04_reader_yields : forall d rows kept recorded,
  Selected (fun lr => ~ row_is_dropped d lr) (number_rows 0 rows) kept ->
  Selected (row_is_recorded d) (number_rows 0 rows) recorded ->
  fst (reader_iter (Some d) rows) = map (fun lr => (fst lr, presented d (snd lr))) kept
  /\ Forall2 (fun lr c => fst c = fst lr /\ recorded_text d (snd lr) (snd c))
       recorded (comments (snd (reader_iter (Some d) rows))).
Proof. exact reader_yields. Qed.
Print Assumptions c04_reader_yields.

(** any number of calls of next() *)
Theorem c04_reader_calls : forall d rows kept calls,
  Selected (fun lr => ~ row_is_dropped d lr) (number_rows 0 rows) kept ->
  fst (reader_loop (Some d) calls rd0 rows) =
  firstn calls (map (fun lr => (fst lr, presented d (snd lr))) kept).
Proof. exact reader_dialect_calls. Qed.
Print Assumptions c04_reader_calls.

(** * C05 *)
(** ends = the csv rows, each with the number of the line it ends on *)
Theorem c05_line_numbers : forall lim d kw k f file text,
  effective_kw d kw = Ok k -> mk_fmt lim k = Ok f ->
  text = (if reader_strips_bom d then strip_bom file else file) ->
  escapechar f = None -> (forall q, quotechar f = Some q -> is_nl q = false) -> is_nl (delim f) = false ->
  only_lf_or_crlf text = true ->
  let ends := read_lines_num f p0 0 true (lines text) in
  match d with
  | None => exists e, reader_with_line_number lim None kw file = Ok (ends, e)
  | Some dd =>
      forall kept, Selected (fun lr => ~ row_is_dropped dd lr) (number_rows 0 (map snd ends)) kept ->
      (exists e, reader_with_line_number lim d kw file =
                 Ok (map (fun lr => (S (fst lr), presented dd (snd lr))) kept, e))
      /\ map (fun lr => (S (fst lr), snd lr)) (number_rows 0 (map snd ends)) = ends
  end.
Proof. exact line_numbers. Qed.
Print Assumptions c05_line_numbers.

(** what "ends on line n" means: the first n lines of the text, read alone,
    give exactly the rows up to and including this one *)
Theorem c05_line_number_meaning : forall f text i n row,
  nth_error (read_lines_num f p0 0 true (lines text)) i = Some (n, row) ->
  csv_read_lines f (firstn n (lines text)) = (firstn (S i) (fst (csv_read f text)), None)
  /\ nth_error (fst (csv_read f text)) i = Some row.
Proof. exact line_number_prefix. Qed.
Print Assumptions c05_line_number_meaning.

(** the docstring ("the line where the row starts"): a row starting on line 1
    (the first row of the file) is reported as line 2 *)
Theorem c05_docstring_start_line_refuted : exists file row,
  reader_with_line_number 131072 None kw0 file = Ok ([(2%nat, row)], None).
Proof. exact start_line_witness. Qed.
Print Assumptions c05_docstring_start_line_refuted.

(** * C06 *)
Theorem c06_dict_item : forall fns restkey restval row,
  NoDup fns -> (forall k, restkey = Some k -> ~ In k fns) ->
  dict_item fns restkey restval row =
  map (fun kv => (Some (fst kv), snd kv)) (combine fns (padded fns row restval))
  ++ (if Nat.ltb (length fns) (length row) then [(restkey, DRest (skipn (length fns) row))] else []).
Proof. exact dict_item_exact. Qed.
Print Assumptions c06_dict_item.

(** duplicate field names: the last position wins *)
Theorem c06_dict_item_lookup : forall fns restkey restval row k,
  let d := dict_item fns restkey restval row in
  ((length row <= length fns)%nat ->
     dget dkey_eqb d (Some k) = dget str_eqb (rev (combine fns (padded fns row restval))) k
     /\ dget dkey_eqb d None = None)
  /\ ((length fns < length row)%nat ->
     dget dkey_eqb d restkey = Some (DRest (skipn (length fns) row))
     /\ (Some k <> restkey -> dget dkey_eqb d (Some k) =
            dget str_eqb (rev (combine fns (map DStr row))) k)).
Proof. exact dict_item_lookup. Qed.
Print Assumptions c06_dict_item_lookup.

Theorem c06_dict_reader : forall lim d kw fns restkey restval file rows e nonempty,
  unicode_reader lim d kw file = Ok (rows, e) ->
  Selected (fun r => r <> []) (match fns with Some _ => rows | None => tl rows end) nonempty ->
  unicode_dict_reader lim d kw fns restkey restval file =
  Ok (match fns, rows with
      | Some f, _ => map (dict_item f restkey restval) nonempty
      | None, f :: _ => map (dict_item f restkey restval) nonempty
      | None, [] => []
      end, e).
Proof. exact dict_reader_rows. Qed.
Print Assumptions c06_dict_reader.

(** * C07 *)
Theorem c07_rewrite_result : forall S pv lim same d kw
  (visitor : S -> nat -> list pystr -> res (S * option (list cell))) v0 file es v',
  rewrite pv lim same d kw visitor v0 (Some file) = (es, Ok v') ->
  exists rows outs new,
    unicode_reader lim d kw file = Ok (rows, None)
    /\ visit_all visitor v0 0 rows = Ok (v', outs)
    /\ write_file pv lim d kw outs = Ok new
    /\ exec {| main := Some file; tmp := None |} es = {| main := Some new; tmp := None |}.
Proof. exact @rewrite_result. Qed.
Print Assumptions c07_rewrite_result.

Theorem c07_rewrite_reads_back : forall S pv lim same
  (visitor : S -> nat -> list pystr -> res (S * option (list cell))) v0 file es v',
  rewrite pv lim same None kw0 visitor v0 (Some file) = (es, Ok v') ->
  exists rows outs new,
    unicode_reader lim None kw0 file = Ok (rows, None)
    /\ visit_all visitor v0 0 rows = Ok (v', outs)
    /\ main (exec {| main := Some file; tmp := None |} es) = Some new
    /\ (cells_within lim (texts outs) -> no_leading_bom (texts outs) ->
        unicode_reader lim None kw0 new = Ok (texts outs, None)).
Proof. exact @rewrite_default_reads_back. Qed.
Print Assumptions c07_rewrite_reads_back.

Theorem c07_rewrite_succeeds : forall S pv lim same d kw
  (visitor : S -> nat -> list pystr -> res (S * option (list cell))) v0 file rows v' outs new,
  unicode_reader lim d kw file = Ok (rows, None) ->
  visit_all visitor v0 0 rows = Ok (v', outs) ->
  write_file pv lim d kw outs = Ok new ->
  exists es, rewrite pv lim same d kw visitor v0 (Some file) = (es, Ok v').
Proof. exact @rewrite_succeeds. Qed.
Print Assumptions c07_rewrite_succeeds.

Theorem c07_failure_leaves_file : forall S pv lim same d kw
  (visitor : S -> nat -> list pystr -> res (S * option (list cell))) v0 file es e,
  rewrite pv lim same d kw visitor v0 file = (es, Err e) ->
  forall done rest, es = done ++ rest ->
  main (exec {| main := file; tmp := None |} done) = file.
Proof. exact @rewrite_failure_safe. Qed.
Print Assumptions c07_failure_leaves_file.

Theorem c07_crash_safe_one_filesystem : forall S pv lim d kw
  (visitor : S -> nat -> list pystr -> res (S * option (list cell))) v0 file es v',
  rewrite pv lim true d kw visitor v0 (Some file) = (es, Ok v') ->
  forall done rest, es = done ++ rest ->
  main (exec {| main := Some file; tmp := None |} done) =
    match rest with [] => main (exec {| main := Some file; tmp := None |} es) | _ => Some file end.
Proof. exact @rewrite_crash_safe. Qed.
Print Assumptions c07_crash_safe_one_filesystem.

Theorem c07_safe_before_move : forall S pv lim same d kw
  (visitor : S -> nat -> list pystr -> res (S * option (list cell))) v0 file es v',
  rewrite pv lim same d kw visitor v0 (Some file) = (es, Ok v') ->
  exists writes new, es = writes ++ move_events same new
    /\ (forall done rest, writes = done ++ rest ->
        main (exec {| main := Some file; tmp := None |} done) = Some file)
    /\ exec {| main := Some file; tmp := None |} writes = {| main := Some file; tmp := Some new |}
    /\ exec {| main := Some file; tmp := None |} es = {| main := Some new; tmp := None |}.
Proof. exact @rewrite_safe_before_move. Qed.
Print Assumptions c07_safe_before_move.

(** temporary directory on another file system: a crash can lose the file *)
Theorem c07_crash_safe_across_filesystems_refuted : exists file es done rest,
  rewrite py_modern 131072 false None kw0 (fun (_ : unit) _ r => Ok (tt, Some (map CStr r))) tt (Some file) = (es, Ok tt)
  /\ es = done ++ rest /\ file <> []
  /\ main (exec {| main := Some file; tmp := None |} done) = Some [].
Proof. exact cross_fs_witness. Qed.
Print Assumptions c07_crash_safe_across_filesystems_refuted.

(** * C08 *)
Theorem c08_add_rows : forall pv lim same file rows old,
  match file with None => old = [] | Some t => unicode_reader lim None kw0 t = Ok (old, None) end ->
  let result := old ++ texts (added (length old) rows) in
  cells_within lim result -> no_leading_bom result ->
  exists es new,
    add_rows pv lim same file rows = (es, Ok tt)
    /\ exec {| main := file; tmp := None |} es = {| main := Some new; tmp := None |}
    /\ unicode_reader lim None kw0 new = Ok (result, None).
Proof. exact add_rows_appends. Qed.
Print Assumptions c08_add_rows.

Theorem c08_add_rows_history : forall pv lim same calls file old,
  match file with None => old = [] | Some t => unicode_reader lim None kw0 t = Ok (old, None) end ->
  cells_within lim (old ++ concat calls) -> no_leading_bom (old ++ concat calls) ->
  calls <> [] ->
  exists new, add_history pv lim same file calls = Some new
    /\ unicode_reader lim None kw0 new = Ok (old ++ concat calls, None).
Proof. exact add_history_appends. Qed.
Print Assumptions c08_add_rows_history.

(** * C09 *)
Theorem c09_filter_rows : forall pv lim same d kw f file header rows kept dropped,
  unicode_reader lim d kw file = Ok (header :: rows, None) ->
  Selected (kept_row f header) rows kept ->
  Selected (dropped_row f header) rows dropped ->
  forall new, write_file pv lim d kw (map (map CStr) (header :: kept)) = Ok new ->
  exists es,
    filter_rows_as_dict pv lim same d kw (fun x => Ok (f x)) (Some file) = (es, Ok (length dropped))
    /\ exec {| main := Some file; tmp := None |} es = {| main := Some new; tmp := None |}.
Proof. exact filter_rows_spec. Qed.
Print Assumptions c09_filter_rows.

Theorem c09_filter_rows_empty_file : forall pv lim same d kw f file,
  unicode_reader lim d kw file = Ok ([], None) ->
  forall new, write_file pv lim d kw [] = Ok new ->
  exists es,
    filter_rows_as_dict pv lim same d kw f (Some file) = (es, Ok 0%nat)
    /\ exec {| main := Some file; tmp := None |} es = {| main := Some new; tmp := None |}.
Proof. exact filter_rows_empty_file. Qed.
Print Assumptions c09_filter_rows_empty_file.

(** "exactly the rows rejected by the filter disappear": empty rows vanish too, uncounted *)
Theorem c09_count_is_rows_lost_refuted : exists file es n new,
  filter_rows_as_dict py_modern 131072 true None kw0 (fun _ => Ok true) (Some file) = (es, Ok 0%nat)
  /\ main (exec {| main := Some file; tmp := None |} es) = Some new
  /\ (match unicode_reader 131072 None kw0 file, unicode_reader 131072 None kw0 new with
      | Ok (a, None), Ok (b, None) => length a = (n + length b)%nat | _, _ => False end)
  /\ n <> 0%nat.
Proof. exact filter_count_witness. Qed.
Print Assumptions c09_count_is_rows_lost_refuted.

(** * C10 *)
Theorem c10_header_once_fresh : forall pv calls w,
  w_rows w = 0%nat ->
  perform pv w calls = perform pv w (map CallRow (expected_rows calls)).
Proof. exact perform_fresh. Qed.
Print Assumptions c10_header_once_fresh.

Theorem c10_no_header_later : forall pv calls w,
  w_rows w <> 0%nat ->
  perform pv w calls = perform pv w (map CallRow (map row_values (all_rows calls))).
Proof. exact perform_later. Qed.
Print Assumptions c10_no_header_later.
