(** /repo/src/csvw/dsv.py and the reader/writer relevant part of
    /repo/src/csvw/dsv_dialects.py. *)
From Verif Require Import PyStr PyCsv.

(** ** Keyword arguments of csv.reader / csv.writer *)
(** [None] = keyword not given.  Only the keywords csvw itself or its users
    pass are modelled; [dialect='excel-tab'] style names are not. *)
Record csv_kw := {
  k_delimiter : option pystr;
  k_doublequote : option bool;
  k_escapechar : option (option pystr);
  k_lineterminator : option pystr;
  k_quotechar : option (option pystr);
  k_skipinitialspace : option bool;
  k_strict : option bool;
  k_quoting : option quoting;
}.
Definition kw0 : csv_kw :=
  {| k_delimiter := None; k_doublequote := None; k_escapechar := None; k_lineterminator := None;
     k_quotechar := None; k_skipinitialspace := None; k_strict := None; k_quoting := None |}.

Definition orelse {A} (a b : option A) : option A := match a with Some _ => a | None => b end.
(** [self.kw = dialect.as_python_formatting_parameters(); self.kw.update(kw)]
    dsv.py:73-75, :173-175 *)
Definition kw_update (base kw : csv_kw) : csv_kw :=
  {| k_delimiter := orelse (k_delimiter kw) (k_delimiter base);
     k_doublequote := orelse (k_doublequote kw) (k_doublequote base);
     k_escapechar := orelse (k_escapechar kw) (k_escapechar base);
     k_lineterminator := orelse (k_lineterminator kw) (k_lineterminator base);
     k_quotechar := orelse (k_quotechar kw) (k_quotechar base);
     k_skipinitialspace := orelse (k_skipinitialspace kw) (k_skipinitialspace base);
     k_strict := orelse (k_strict kw) (k_strict base);
     k_quoting := orelse (k_quoting kw) (k_quoting base) |}.

Definition getdef {A} (o : option A) (d : A) : A := match o with Some a => a | None => d end.

Definition one_char (s : pystr) : res N :=
  match s with [c] => Ok c | _ => Err TypeError end.
Definition opt_char (o : option pystr) : res (option N) :=
  match o with None => Ok None | Some s => c <- one_char s ;; Ok (Some c) end.

(** _csv.Dialect construction from the 'excel' defaults (stdlib): each of
    delimiter/quotechar/escapechar must be one character; quotechar None with
    no explicit quoting switches quoting off; quoting needs a quotechar. *)
Definition mk_fmt (lim : N) (k : csv_kw) : res fmt :=
  d <- one_char (getdef (k_delimiter k) (lit ",")) ;;
  q <- opt_char (getdef (k_quotechar k) (Some [34])) ;;
  e <- opt_char (getdef (k_escapechar k) None) ;;
  let qm := match k_quoting k with
            | Some m => m
            | None => match q with None => QNone | Some _ => QMinimal end
            end in
  match qm, q with
  | QNone, _ | _, Some _ =>
      Ok {| delim := d; quotechar := q; escapechar := e;
            doublequote := getdef (k_doublequote k) true;
            skipinitialspace := getdef (k_skipinitialspace k) false;
            lineterm := getdef (k_lineterminator k) [CR; LF];
            quotemode := qm; strict := getdef (k_strict k) false; limit := lim |}
  | _, None => Err TypeError
  end.

(** ** Dialect: dsv_dialects.py:43-160 *)
Inductive trimmode := TrimTrue | TrimFalse | TrimStart | TrimEnd.

(** dsv_dialects.py:51-117. Attribute values after conversion/validation. *)
Record dialect := {
  d_encoding : pystr;
  d_lineTerminators : list pystr;
  d_quoteChar : option pystr;
  d_doubleQuote : bool;
  d_skipRows : nat;
  d_commentPrefix : option pystr;
  d_header : bool;
  d_headerRowCount : nat;
  d_delimiter : pystr;
  d_skipColumns : nat;
  d_skipBlankRows : bool;
  d_skipInitialSpace : bool;
  d_trim : trimmode;
}.
(** dsv_dialects.py:51-117: Dialect() *)
Definition default_dialect : dialect :=
  {| d_encoding := lit "utf-8"; d_lineTerminators := [[CR; LF]; [LF]]; d_quoteChar := Some [34];
     d_doubleQuote := true; d_skipRows := 0; d_commentPrefix := Some (lit "#"); d_header := true;
     d_headerRowCount := 1; d_delimiter := lit ","; d_skipColumns := 0; d_skipBlankRows := false;
     d_skipInitialSpace := false; d_trim := TrimFalse |}.

(** dsv_dialects.py:125-127 escape_character *)
Definition escape_character (d : dialect) : option pystr :=
  match d_quoteChar d with
  | None => None
  | Some _ => Some (if d_doubleQuote d then [34] else [92])
  end.

(** dsv_dialects.py:149-160 as_python_formatting_parameters.
    line_terminators[0] raises IndexError for an empty list. *)
Definition as_python_formatting_parameters (d : dialect) : res csv_kw :=
  match d_lineTerminators d with
  | [] => Err IndexError
  | lt :: _ =>
      Ok {| k_delimiter := Some (d_delimiter d);
            k_doublequote := Some (d_doubleQuote d);
            k_escapechar := Some (if negb (d_doubleQuote d) then escape_character d else None);
            k_lineterminator := Some lt;
            k_quotechar := Some (d_quoteChar d);
            k_skipinitialspace := Some (d_skipInitialSpace d);
            k_strict := Some true;
            k_quoting := None |}
  end.

(** dsv_dialects.py:134-141 trimmer *)
Definition trimmer (d : dialect) (s : pystr) : pystr :=
  match d_trim d with
  | TrimTrue => strip s
  | TrimFalse => s
  | TrimStart => lstrip s
  | TrimEnd => rstrip s
  end.

(** ** UnicodeWriter: dsv.py:42-137 *)
(** A cell handed to writerow: a str, None, or another object with its str(). *)
Inductive cell := CStr (s : pystr) | CNone | COther (s : pystr).
(** csv.writer: str as is, None as '', str() of everything else *)
Definition cell_str (c : cell) : pystr :=
  match c with CStr s => s | CNone => [] | COther s => s end.

(** dsv.py:72-79: the effective csv keywords *)
Definition effective_kw (d : option dialect) (kw : csv_kw) : res csv_kw :=
  match d with
  | Some dd => base <- as_python_formatting_parameters dd ;; Ok (kw_update base kw)
  | None => Ok kw
  end.

(** dsv.py:81-93: escape doubling is on iff an escapechar is set and the
    keyword quoting is not QUOTE_NONE *)
Definition doubling (k : csv_kw) : option pystr :=
  match getdef (k_escapechar k) None with
  | Some (c :: e) => match k_quoting k with Some QNone => None | _ => Some (c :: e) end
  | _ => None
  end.
(** dsv.py:85-89 _escapedoubled (only str cells are touched) *)
Definition escapedoubled (k : csv_kw) (c : cell) : cell :=
  match doubling k, c with
  | Some e, CStr s => CStr (replace e (e ++ e) s)
  | _, _ => c
  end.

(** a row as passed to writerows: a list/tuple, or a dict (insertion ordered) *)
Inductive wrow_in := RList (cells : list cell) | RDict (items : list (pystr * cell)).

(** State of an entered writer: formatting, text written so far, _rows_written.
    The target file (or StringIO) receives exactly the concatenated output. *)
Record wstate := { w_kw : csv_kw; w_fmt : fmt; w_out : pystr; w_rows : nat }.

Section Writer.
Variable pv : pyver.
Variable lim : N.

(** dsv.py:65-107 __init__ and __enter__ *)
Definition writer_open (d : option dialect) (kw : csv_kw) : res wstate :=
  k <- effective_kw d kw ;;
  f <- mk_fmt lim k ;;
  Ok {| w_kw := k; w_fmt := f; w_out := []; w_rows := 0 |}.

(** dsv.py:121-123 writerow. When csv.writer raises, nothing is written and
    _rows_written is not incremented. *)
Definition writerow (w : wstate) (row : list cell) : res wstate :=
  t <- wrow pv (w_fmt w) (map (fun c => cell_str (escapedoubled (w_kw w) c)) row) ;;
  Ok {| w_kw := w_kw w; w_fmt := w_fmt w; w_out := w_out w ++ t; w_rows := S (w_rows w) |}.

(** dsv.py:125-137 writerows; [i] is enumerate's counter.  Returns the state
    reached and the exception, if any. *)
Fixpoint writerows_from (i : nat) (w : wstate) (rows : list wrow_in) : wstate * option exn :=
  match rows with
  | [] => (w, None)
  | row :: rest =>
      let hdr :=
        match row with
        | RDict items =>
            if Nat.eqb i 0 && Nat.eqb (w_rows w) 0
            then writerow w (map (fun kv => CStr (fst kv)) items) else Ok w
        | RList _ => Ok w
        end in
      match hdr with
      | Err e => (w, Some e)
      | Ok w1 =>
          let cells := match row with RList cs => cs | RDict items => map snd items end in
          match writerow w1 cells with
          | Err e => (w1, Some e)
          | Ok w2 => writerows_from (S i) w2 rest
          end
      end
  end.
Definition writerows (w : wstate) (rows : list wrow_in) : wstate * option exn :=
  writerows_from 0 w rows.

End Writer.

(** ** UnicodeReader: dsv.py:140-226 *)

(** dsv.py:181-182, :190: the file is decoded with utf-8-sig if the encoding is
    utf-8: one leading U+FEFF is dropped.  Texts stand for the decoded file. *)
Definition strip_bom (t : pystr) : pystr :=
  match t with c :: t' => if c =? BOM then t' else t | [] => [] end.
Definition reader_strips_bom (d : option dialect) : bool :=
  match d with
  | None => true
  | Some dd => str_eqb (d_encoding dd) (lit "utf-8") || str_eqb (d_encoding dd) (lit "utf-8-sig")
               || str_eqb (d_encoding dd) (lit "UTF-8-BOM")
  end.
(** dsv.py:98-101 with encoding 'utf-8-sig': the BOM is written first *)
Definition writer_adds_bom (d : option dialect) : bool :=
  match d with
  | None => false
  | Some dd => str_eqb (d_encoding dd) (lit "utf-8-sig") || str_eqb (d_encoding dd) (lit "UTF-8-BOM")
  end.
Definition file_text (d : option dialect) (out : pystr) : pystr :=
  match out with
  | [] => []
  | _ => if writer_adds_bom d then BOM :: out else out
  end.

(** dsv.py:166-197 __init__/__enter__ for a path (without the lineterminator
    keyword, which would change how lines are found): the rows csv.reader gives *)
Definition reader_rows (lim : N) (d : option dialect) (kw : csv_kw) (file : pystr)
  : res (stream (list pystr)) :=
  k <- effective_kw d kw ;;
  f <- mk_fmt lim k ;;
  Ok (csv_read f (if reader_strips_bom d then strip_bom file else file)).

(** the same for a list of str lines, dsv.py:192-196 *)
Definition reader_rows_lines (lim : N) (d : option dialect) (kw : csv_kw) (ls : list pystr)
  : res (stream (list pystr)) :=
  k <- effective_kw d kw ;;
  f <- mk_fmt lim k ;;
  Ok (csv_read_lines f ls).

(** dsv.py:205: sum([list(s).count('\n') for s in row]) *)
Definition row_newlines (row : list pystr) : nat :=
  fold_right (fun s n => (count_char LF s + n)%nat) 0%nat row.

(** dsv.py:210-213, first clause *)
Definition is_comment_row (d : dialect) (row : list pystr) : bool :=
  match row, d_commentPrefix d with
  | c :: _, Some (p0 :: p) => startswith (p0 :: p) c
  | _, _ => false
  end.
(** [not row or set(row) == {''}] *)
Definition is_blank_row (row : list pystr) : bool :=
  forallb (fun s => match s with [] => true | _ => false end) row.
(** dsv.py:218-221: text recorded for a comment *)
Definition comment_text (d : dialect) (row : list pystr) : pystr :=
  let joined := join (d_delimiter d) row in
  strip (match d_commentPrefix d with
         | None => lstrip joined
         | Some p => lstrip_by (fun c => char_mem c p) joined
         end).

(** self.lineno and self.comments.  lineno is -1 before the first row; we store
    lineno + 1 as a natural number ([next_line]). *)
Record rdstate := { next_line : nat; comments : list (nat * pystr) }.
Definition rd0 : rdstate := {| next_line := 0; comments := [] |}.

(** dsv.py:199-224 __next__ with a Dialect: consume csv rows until one is to be
    yielded. Result: the yielded row with its 0-based lineno and the remaining
    rows, or None when the csv rows are exhausted. *)
Fixpoint dialect_next (d : dialect) (st : rdstate) (rows : list (list pystr))
  : option (nat * list pystr) * rdstate * list (list pystr) :=
  match rows with
  | [] => (None, {| next_line := S (next_line st); comments := comments st |}, [])
  | row :: rest =>
      let lineno := (next_line st + row_newlines row)%nat in
      let st1 := {| next_line := S lineno; comments := comments st |} in
      if is_comment_row d row || (is_blank_row row && d_skipBlankRows d)
         || Nat.ltb lineno (d_skipRows d)
      then
        let cs := if is_comment_row d row
                     || (negb (match row with [] => true | _ => false end)
                         && Nat.ltb lineno (d_skipRows d))
                  then comments st ++ [(lineno, comment_text d row)]
                  else comments st in
        dialect_next d {| next_line := S lineno; comments := cs |} rest
      else (Some (lineno, skipn (d_skipColumns d) (map (trimmer d) row)), st1, rest)
  end.

(** dsv.py:207-208 __next__ without a Dialect *)
Definition plain_next (st : rdstate) (rows : list (list pystr))
  : option (nat * list pystr) * rdstate * list (list pystr) :=
  match rows with
  | [] => (None, {| next_line := S (next_line st); comments := comments st |}, [])
  | row :: rest =>
      let lineno := (next_line st + row_newlines row)%nat in
      (Some (lineno, row), {| next_line := S lineno; comments := comments st |}, rest)
  end.

Definition reader_next (d : option dialect) :=
  match d with Some dd => dialect_next dd | None => plain_next end.

(** iterate __next__ until it stops; [fuel] bounds the number of calls *)
Fixpoint reader_loop (d : option dialect) (fuel : nat) (st : rdstate) (rows : list (list pystr))
  : list (nat * list pystr) * rdstate :=
  match fuel with
  | O => ([], st)
  | S k =>
      match reader_next d st rows with
      | (Some r, st', rest) => let x := reader_loop d k st' rest in (r :: fst x, snd x)
      | (None, st', _) => ([], st')
      end
  end.
(** list(reader): every call consumes at least one csv row, so
    [S (length rows)] calls are enough *)
Definition reader_iter (d : option dialect) (rows : list (list pystr))
  : list (nat * list pystr) * rdstate :=
  reader_loop d (S (length rows)) rd0 rows.

(** list(UnicodeReader(file, dialect, **kw)): rows, and how iteration ended *)
Definition unicode_reader (lim : N) (d : option dialect) (kw : csv_kw) (file : pystr)
  : res (stream (list pystr)) :=
  s <- reader_rows lim d kw file ;;
  Ok (map snd (fst (reader_iter d (fst s))), snd s).

(** dsv.py:228-241 list(UnicodeReaderWithLineNumber(...)) *)
Definition reader_with_line_number (lim : N) (d : option dialect) (kw : csv_kw) (file : pystr)
  : res (stream (nat * list pystr)) :=
  s <- reader_rows lim d kw file ;;
  Ok (map (fun x => (S (fst x), snd x)) (fst (reader_iter d (fst s))), snd s).

(** ** UnicodeDictReader: dsv.py:244-318 *)
Inductive dval := DStr (s : pystr) | DRest (l : list pystr) | DVal (restval : option pystr).
(** dict keys: field names are str; restkey may be None *)
Definition dkey := option pystr.
Definition dkey_eqb (a b : dkey) : bool :=
  match a, b with
  | Some x, Some y => str_eqb x y
  | None, None => true
  | _, _ => false
  end.
(** d[k] = v on an insertion ordered dict *)
Fixpoint dset {K V} (eqb : K -> K -> bool) (d : list (K * V)) (k : K) (v : V) : list (K * V) :=
  match d with
  | [] => [(k, v)]
  | (k', v') :: d' => if eqb k k' then (k', v) :: d' else (k', v') :: dset eqb d' k v
  end.
Fixpoint dget {K V} (eqb : K -> K -> bool) (d : list (K * V)) (k : K) : option V :=
  match d with
  | [] => None
  | (k', v) :: d' => if eqb k k' then Some v else dget eqb d' k
  end.
Definition dset_all {K V} (eqb : K -> K -> bool) (d : list (K * V)) (kvs : list (K * V)) :=
  fold_left (fun acc kv => dset eqb acc (fst kv) (snd kv)) kvs d.

(** dsv.py:309-318 item *)
Definition dict_item (fieldnames : list pystr) (restkey : dkey) (restval : option pystr)
  (row : list pystr) : list (dkey * dval) :=
  let d := dset_all dkey_eqb [] (map (fun kv => (Some (fst kv), DStr (snd kv))) (combine fieldnames row)) in
  let lf := length fieldnames in
  let lr := length row in
  if Nat.ltb lf lr then dset dkey_eqb d restkey (DRest (skipn lf row))
  else dset_all dkey_eqb d (map (fun k => (Some k, DVal restval)) (skipn lr fieldnames)).

(** dsv.py:281-307: the first row gives the field names unless passed in;
    empty rows are skipped *)
Definition dict_rows (fieldnames : option (list pystr)) (restkey : dkey) (restval : option pystr)
  (rows : list (list pystr)) : list (list (dkey * dval)) :=
  let nonempty := filter (fun r => negb (match r with [] => true | _ => false end)) in
  match fieldnames with
  | Some fns => map (dict_item fns restkey restval) (nonempty rows)
  | None => match rows with
            | [] => []
            | fns :: rest => map (dict_item fns restkey restval) (nonempty rest)
            end
  end.
Definition unicode_dict_reader (lim : N) (d : option dialect) (kw : csv_kw)
  (fieldnames : option (list pystr)) (restkey : dkey) (restval : option pystr) (file : pystr)
  : res (stream (list (dkey * dval))) :=
  s <- unicode_reader lim d kw file ;;
  Ok (dict_rows fieldnames restkey restval (fst s), snd s).

(** ** rewrite, add_rows, filter_rows_as_dict: dsv.py:366-458 *)

(** A file system: two relevant paths, the data file and the temporary file
    (tempfile.NamedTemporaryFile guarantees they differ). [None] = no file. *)
Record fs := { main : option pystr; tmp : option pystr }.

(** File system effects in program order.  Move is os.rename when both paths
    are on the same file system, otherwise shutil.move copies and unlinks. *)
Inductive event :=
| CreateTmp                 (* NamedTemporaryFile(delete=False) *)
| TruncTmp                  (* opening the writer *)
| AppendTmp (t : pystr)     (* buffered row output reaching the file *)
| RenameTmp                 (* shutil.move on one file system *)
| TruncMain | AppendMain (t : pystr) | UnlinkTmp.   (* shutil.move across *)

Definition apply_event (s : fs) (e : event) : fs :=
  match e with
  | CreateTmp => {| main := main s; tmp := Some [] |}
  | TruncTmp => {| main := main s; tmp := Some [] |}
  | AppendTmp t => {| main := main s; tmp := Some (getdef (tmp s) [] ++ t) |}
  | RenameTmp => {| main := tmp s; tmp := None |}
  | TruncMain => {| main := Some []; tmp := tmp s |}
  | AppendMain t => {| main := Some (getdef (main s) [] ++ t); tmp := tmp s |}
  | UnlinkTmp => {| main := main s; tmp := None |}
  end.
Definition exec (s : fs) (es : list event) : fs := fold_left apply_event es s.

(** shutil.move(tmp, fname) *)
Definition move_events (same_fs : bool) (content : pystr) : list event :=
  if same_fs then [RenameTmp]
  else TruncMain :: map (fun c => AppendMain [c]) content ++ [UnlinkTmp].

Section Rewrite.
Variable pv : pyver.
Variable lim : N.

(** dsv.py:385-389: the loop, with the visitor as a state transformer that may
    raise (visitors such as DictFilter keep state).  Returns the text appended
    per row and the outcome. *)
Fixpoint visit_rows {S} (visitor : S -> nat -> list pystr -> res (S * option (list cell)))
  (w : wstate) (v : S) (i : nat) (rows : list (list pystr)) (endr : option exn)
  : list pystr * res (S * wstate) :=
  match rows with
  | [] => match endr with Some e => ([], Err e) | None => ([], Ok (v, w)) end
  | row :: rest =>
      match visitor v i row with
      | Err e => ([], Err e)
      | Ok (v', None) => visit_rows visitor w v' (i + 1) rest endr
      | Ok (v', Some out) =>
          match writerow pv w out with
          | Err e => ([], Err e)
          | Ok w' =>
              let r := visit_rows visitor w' v' (i + 1) rest endr in
              (skipn (length (w_out w)) (w_out w') :: fst r, snd r)
          end
      end
  end.

(** dsv.py:366-390 rewrite: the events it causes and its result *)
Definition rewrite {S} (same_fs : bool) (d : option dialect) (kw : csv_kw)
  (visitor : S -> nat -> list pystr -> res (S * option (list cell))) (v0 : S) (file : option pystr)
  : list event * res S :=
  match file with
  | None => ([], Err AssertionError)          (* assert fname.is_file() *)
  | Some t =>
      match unicode_reader lim d kw t with
      | Err e => ([CreateTmp], Err e)
      | Ok rows =>
          match writer_open lim d kw with
          | Err e => ([CreateTmp; TruncTmp], Err e)
          | Ok w =>
              let r := visit_rows visitor w v0 0 (fst rows) (snd rows) in
              let bom := if writer_adds_bom d then
                           match concat (fst r) with [] => [] | _ => [AppendTmp [BOM]] end else [] in
              let writes := [CreateTmp; TruncTmp] ++ bom ++ map AppendTmp (fst r) in
              match snd r with
              | Err e => (writes, Err e)
              | Ok (v, w') =>
                  (writes ++ move_events same_fs (file_text d (w_out w')), Ok v)
              end
          end
      end
  end.

(** dsv.py:393-404 add_rows *)
Definition add_rows (same_fs : bool) (file : option pystr) (rows : list wrow_in)
  : list event * res unit :=
  match writer_open lim None kw0 with
  | Err e => ([CreateTmp; TruncTmp], Err e)
  | Ok w =>
      let copied :=
        match file with
        | None => ([], Ok (tt, w))
        | Some t =>
            match unicode_reader lim None kw0 t with
            | Err e => ([], Err e)
            | Ok rs => visit_rows (fun _ _ r => Ok (tt, Some (map CStr r))) w tt 0 (fst rs) (snd rs)
            end
        end in
      let pre := [CreateTmp; TruncTmp] ++ map AppendTmp (fst copied) in
      match snd copied with
      | Err e => (pre, Err e)
      | Ok (_, w1) =>
          let r := writerows pv w1 rows in
          let out := skipn (length (w_out w1)) (w_out (fst r)) in
          match snd r with
          | Some e => (pre ++ [AppendTmp out], Err e)
          | None => (pre ++ [AppendTmp out] ++ move_events same_fs (w_out (fst r)), Ok tt)
          end
      end
  end.

(** dsv.py:425-441 DictFilter: state = header, number of removed rows *)
Record dfstate := { df_header : list pystr; df_removed : nat }.
Definition dict_filter (flt : list (pystr * pystr) -> res bool)
  (s : dfstate) (i : nat) (row : list pystr) : res (dfstate * option (list cell)) :=
  if Nat.eqb i 0 then Ok ({| df_header := row; df_removed := df_removed s |}, Some (map CStr row))
  else match row with
       | [] => Ok (s, None)
       | _ =>
           keep <- flt (dset_all str_eqb [] (combine (df_header s) row)) ;;
           if keep : bool then Ok (s, Some (map CStr row))
           else Ok ({| df_header := df_header s; df_removed := S (df_removed s) |}, None)
       end.

(** dsv.py:407-422 filter_rows_as_dict *)
Definition filter_rows_as_dict (same_fs : bool) (d : option dialect) (kw : csv_kw)
  (flt : list (pystr * pystr) -> res bool) (file : option pystr) : list event * res nat :=
  let r := rewrite same_fs d kw (dict_filter flt) {| df_header := []; df_removed := 0 |} file in
  (fst r, match snd r with Ok s => Ok (df_removed s) | Err e => Err e end).

End Rewrite.
