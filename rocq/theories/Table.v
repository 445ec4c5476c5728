(** metadata.Table: reading, writing, primary key check.  metadata.py:976-986, 1180-1460. *)
From Verif Require Import PyStr PyCsv Dsv Json Dec NatLang Column Schema.

(** ** Columns of a table with what depends on their parents *)
Section Table.
Context {V : Type} (sc : scalars V).
(** uritemplate's expand, given the row as keyword arguments: library *)
Variable expand : pystr -> list (pystr * pyval V) -> res pystr.

(** a column with its header and its inherited settings *)
Record tcol := { tc_col : column V; tc_header : pystr; tc_st : @settings V }.
(** resolving header and settings of a column.  Columns whose header raises IndexError (see C34) are
    not modelled any further. *)
Definition tcol_of (parents : list (desc V)) (c : column V) : res tcol :=
  h <- header c ;;
  Ok {| tc_col := c; tc_header := h; tc_st := settings_of (c_desc c) parents |}.
(** the columns of a table: parents are the schema, the table, the table group *)
Definition tcols_of (s : schema V) (outer : list (desc V)) : res (list tcol) :=
  mapM (tcol_of (s_desc s :: outer)) (s_columns s).
Definition tc_virtual (c : tcol) : bool := c_virtual (tc_col c).
(** [col.required], not inherited *)
Definition tc_required (c : tcol) : bool := getdef (de_required (c_desc (tc_col c))) false.
Definition regular (cols : list tcol) : list tcol := filter (fun c => negb (tc_virtual c)) cols.
Definition colnames (cols : list tcol) : list pystr := map tc_header (regular cols).
(** metadata.py:1334-1337: virtual columns with a valueUrl of their own *)
Definition virtualcols (cols : list tcol) : list (pystr * pystr) :=
  flat_map (fun c => if tc_virtual c then match de_valueUrl (c_desc (tc_col c)) with
                                          | Some u => [(tc_header c, u)] | None => [] end
                     else []) cols.

(** metadata.py:972-986 columndict, get_column(name) without strict *)
Fixpoint find_by_title (cols : list tcol) (name : pystr) : res (option tcol) :=
  match cols with
  | [] => Ok None
  | c :: rest =>
      t <- first_title (tc_col c) ;;
      if match t with Some t => str_eqb t name | None => false end then Ok (Some c)
      else if match de_propertyUrl (c_desc (tc_col c)) with Some u => str_eqb u name | None => false end then Ok (Some c)
      else find_by_title rest name
  end.
Definition get_column (cols : list tcol) (name : pystr) : res (option tcol) :=
  match dget str_eqb (dset_all str_eqb [] (map (fun c => (tc_header c, c)) cols)) name with
  | Some c => Ok (Some c)
  | None => find_by_title cols name
  end.

(** Column.fromvalue({'name': '_col.<n>'}), without parents *)
Definition anon_col (n : nat) : tcol :=
  let name := col_n (Some n) in
  {| tc_col := {| c_desc := desc0; c_name := Some name; c_titles := None; c_virtual := false; c_number := None |};
     tc_header := name; tc_st := settings_of desc0 [] |}.

(** ** iterdicts: metadata.py:1303-1460 *)
Definition hcols := list (pystr * option tcol).
(** metadata.py:1366-1375: warnings about the header in non-strict mode; [lang] is table.lang *)
Definition primary_tag (s : pystr) : pystr := match split (lit "-") s with t :: _ => t | [] => [] end.
Definition header_warnings (lang : pystr) (cols : list tcol) (hdr : list pystr) : list warning :=
  (if negb (match cols with [] => true | _ => false end) && Nat.ltb (length cols) (length hdr) then [ColumnNumberMismatch] else [])
  ++ flat_map (fun nc =>
       let m := has_title (tc_col (snd nc)) (fst nc) in
       match nonempty_opt (c_name (tc_col (snd nc))), m with None, NoTitle => [IncompatibleTableModels] | _, _ => [] end
       ++ match m with
          | ByLang tag => if str_mem (primary_tag tag) [lit "und"; primary_tag (if nonempty lang then lang else lit "und")]
                          then [] else [IncompatibleColumnTitles]
          | _ => []
          end) (combine hdr cols).

(** metadata.py:1381-1400: which column a cell belongs to *)
Definition header_cols (strict : bool) (cols : list tcol) (hdr : list pystr) : res hcols :=
  if (if list_eq_dec str_eq_dec hdr (colnames cols) then true else false)
     || (Nat.leb (length hdr) (length cols) && negb strict)
  then Ok (combine hdr (map Some cols))
  else if negb strict && negb (match cols with [] => true | _ => false end) && Nat.ltb (length cols) (length hdr)
  then Ok (combine hdr (map Some cols)
           ++ map (fun i => (col_n (Some (S i)), Some (anon_col (S i)))) (seq (length cols) (length hdr - length cols)))
  else mapM (fun h => c <- get_column cols h ;; Ok (h, c)) hdr.

(** metadata.py:1401-1404 *)
Definition present_headers (hc : hcols) : list pystr :=
  flat_map (fun e => match snd e with Some c => [tc_header c] | None => [] end) hc.
Definition missing_required (cols : list tcol) (hc : hcols) : bool :=
  existsb (fun c => tc_required c && negb (str_mem (tc_header c) (present_headers hc))) cols.

(** messages given to the log: line, 1-based column, header in the file *)
Inductive lmsg := BadCell (line col : nat) (key : pystr) | MissingCell (line col : nat) (key : pystr).
Definition dict := list (pystr * pyval V).
(** What has happened so far: the dict, messages, warnings, and the exception that ended it *)
Record rowout := { ro_dict : dict; ro_msgs : list lmsg; ro_warns : list warning; ro_exn : option exn }.
Definition ro_push (ms : list lmsg) (ws : list warning) (o : rowout) : rowout :=
  {| ro_dict := ro_dict o; ro_msgs := ms ++ ro_msgs o; ro_warns := ws ++ ro_warns o; ro_exn := ro_exn o |}.
Definition ro_stop (d : dict) (ws : list warning) (e : exn) : rowout :=
  {| ro_dict := d; ro_msgs := []; ro_warns := ws; ro_exn := Some e |}.

(** metadata.py:1416-1437: the cells of one row from column [j] on.  [log]: a log was given.  *)
Fixpoint read_cells (strict log : bool) (line j : nat) (hc : hcols) (row : list pystr) (d : dict) : rowout :=
  match hc, row with
  | (k, Some c) :: hc', v :: row' =>
      let r := col_read sc strict (tc_st c) v in
      let ws := (if col_noise (tc_st c) v then [DatatypeWarning] else []) ++ if snd r then [match fst r with Ok _ => InvalidListElement | Err _ => RequiredMissing end] else [] in
      match fst r with
      | Ok x => ro_push [] ws (read_cells strict log line (S j) hc' row' (dset str_eqb d (tc_header c) x))
      | Err ValueError =>
          if strict then
            if log then ro_push [BadCell line (S j) k] ws (read_cells strict log line (S j) hc' row' d)
            else ro_stop d ws ValueError
          else ro_push [] (ws ++ [InvalidColumnValue])
                 (read_cells strict log line (S j) hc' row' (dset str_eqb d (tc_header c) (POne (s_str sc v))))
      | Err e => ro_stop d ws e
      end
  | (k, None) :: hc', v :: row' =>
      ro_push [] (if strict then [UnspecifiedColumn] else [])
        (read_cells strict log line (S j) hc' row' (dset str_eqb d k (POne (s_str sc v))))
  | _, _ => {| ro_dict := d; ro_msgs := []; ro_warns := []; ro_exn := None |}
  end.

(** metadata.py:1407: {h: j for j, h, c in header_cols if c and c.required} *)
Definition required_keys (hc : hcols) : list (pystr * nat) :=
  dset_all str_eqb [] (flat_map (fun je => match snd (snd je) with
                                           | Some c => if tc_required c then [(fst (snd je), fst je)] else []
                                           | None => [] end)
                         (combine (seq 0 (length hc)) hc)).
(** keys deleted from it while reading a row of [n] cells *)
Definition seen_keys (hc : hcols) (n : nat) : list pystr :=
  flat_map (fun e => match snd e with Some _ => [fst e] | None => [] end) (firstn n hc).
(** metadata.py:1439-1445 *)
Definition missing_cells (line : nat) (hc : hcols) (row : list pystr) (d : dict) : list lmsg :=
  flat_map (fun kj => if str_mem (fst kj) (seen_keys hc (length row)) then []
                      else match dget str_eqb d (fst kj) with
                           | Some _ => []
                           | None => [MissingCell line (S (snd kj)) (fst kj)]
                           end) (required_keys hc).
(** metadata.py:1447-1449: res.setdefault(key, None) *)
Definition setdefault_all (d : dict) (ks : list pystr) : dict :=
  fold_left (fun d k => match dget str_eqb d k with Some _ => d | None => dset str_eqb d k PNone end) ks d.
(** metadata.py:1451-1453 *)
Fixpoint add_virtual (d : dict) (vs : list (pystr * pystr)) : res dict :=
  match vs with
  | [] => Ok d
  | (k, u) :: rest => s <- expand u d ;; add_virtual (dset str_eqb d k (POne (s_str sc s))) rest
  end.

(** metadata.py:1407-1459: one row.  A row is yielded if there is no exception and no message. *)
Definition process_row (strict log : bool) (cols : list tcol) (line : nat) (hc : hcols) (row : list pystr) : rowout :=
  let o := read_cells strict log line 0 hc row [] in
  match ro_exn o with
  | Some _ => o
  | None =>
      let ms := missing_cells line hc row (ro_dict o) in
      if negb log && negb (match ms with [] => true | _ => false end)
      then {| ro_dict := ro_dict o; ro_msgs := ro_msgs o; ro_warns := ro_warns o; ro_exn := Some ValueError |}
      else
        match add_virtual (setdefault_all (ro_dict o) (colnames cols)) (virtualcols cols) with
        | Ok d => {| ro_dict := d; ro_msgs := ro_msgs o ++ ms; ro_warns := ro_warns o; ro_exn := None |}
        | Err e => {| ro_dict := ro_dict o; ro_msgs := ro_msgs o ++ ms; ro_warns := ro_warns o; ro_exn := Some e |}
        end
  end.

(** What list(iterdicts(...)) yields, in order, up to the exception that ends it; log messages and warnings *)
Record iterout := { io_rows : list (nat * dict); io_msgs : list lmsg; io_warns : list warning; io_end : option exn }.
Definition io_err (ws : list warning) (e : exn) : iterout := {| io_rows := []; io_msgs := []; io_warns := ws; io_end := Some e |}.
Definition io_empty : iterout := {| io_rows := []; io_msgs := []; io_warns := []; io_end := None |}.
Definition io_cons (line : nat) (o : rowout) (rest : iterout) : iterout :=
  {| io_rows := match ro_msgs o with [] => (line, ro_dict o) :: io_rows rest | _ => io_rows rest end;
     io_msgs := ro_msgs o ++ io_msgs rest; io_warns := ro_warns o ++ io_warns rest; io_end := io_end rest |}.
(** metadata.py:1410-1415: without header columns, the first non-empty row decides *)
Definition ensure_cols (hc : hcols) (row : list pystr) : hcols :=
  match hc with
  | [] => map (fun i => (col_n (Some (S i)), Some (anon_col (S i)))) (seq 0 (length row))
  | _ => hc
  end.
(** metadata.py:1406-1459: the loop over the rows *)
Fixpoint iter_rows (strict log : bool) (cols : list tcol) (hc : hcols) (rows : list (nat * list pystr)) (endr : option exn) : iterout :=
  match rows with
  | [] => {| io_rows := []; io_msgs := []; io_warns := []; io_end := endr |}
  | (line, row) :: rest =>
      let hc' := ensure_cols hc row in
      let o := process_row strict log cols line hc' row in
      match ro_exn o with
      | Some e => {| io_rows := []; io_msgs := ro_msgs o; io_warns := ro_warns o; io_end := Some e |}
      | None => io_cons line o (iter_rows strict log cols hc' rest endr)
      end
  end.

(** metadata.py:1381-1459: what follows once the header is known *)
Definition iter_data (strict log : bool) (cols : list tcol) (hdr : list pystr) (ws : list warning)
  (rows : list (nat * list pystr)) (endr : option exn) : iterout :=
  match header_cols strict cols hdr with
  | Err e => io_err ws e
  | Ok hc =>
      if missing_required cols hc then io_err ws ValueError
      else let o := iter_rows strict log cols hc rows endr in
           {| io_rows := io_rows o; io_msgs := io_msgs o; io_warns := ws ++ io_warns o; io_end := io_end o |}
  end.

(** metadata.py:1303-1460 iterdicts on an existing, decoded file.  Zip files, URLs and with_metadata=False
    (which drops the line numbers) are not modelled.  Only one header row is consumed. *)
Definition iterdicts (lim : N) (d : dialect) (lang : pystr) (strict log : bool) (cols : list tcol) (file : pystr) : iterout :=
  match reader_with_line_number lim (Some d) kw0 file with
  | Err e => io_err [] e
  | Ok (rows, endr) =>
      if d_header d then
        match rows with
        | [] => {| io_rows := []; io_msgs := []; io_warns := []; io_end := endr |}
        | (_, hdr) :: rest =>
            iter_data strict log cols hdr (if strict then [] else header_warnings lang cols hdr) rest endr
        end
      else iter_data strict log cols (colnames cols) [] rows endr
  end.

(** ** write: metadata.py:1226-1278, to a path, without zipping *)
Inductive item := IDict (kvs : dict) | IList (vs : list (pyval V)).
(** the cells of one item *)
Definition item_row (cols : list tcol) (it : item) : res (list cell) :=
  match it with
  | IDict kvs => mapM (fun c => col_write sc (tc_st c) (getdef (dget str_eqb kvs (tc_header c)) PNone)) (regular cols)
  | IList vs => mapM (fun ic => match nth_error vs (fst ic) with
                                | Some v => col_write sc (tc_st (snd ic)) v
                                | None => Err IndexError
                                end) (combine (seq 0 (length (regular cols))) (regular cols))
  end.
(** metadata.py:1256-1260 *)
Definition unknown_keys (cols : list tcol) (it : item) : bool :=
  match it with
  | IDict kvs => existsb (fun kv => negb (str_mem (fst kv) (colnames cols))) kvs
  | IList _ => false
  end.
Fixpoint write_items (pv : pyver) (strict : bool) (cols : list tcol) (w : wstate) (items : list item) : wstate * option exn :=
  match items with
  | [] => (w, None)
  | it :: rest =>
      if strict && unknown_keys cols it then (w, Some ValueError)
      else match item_row cols it with
           | Err e => (w, Some e)
           | Ok cells => match writerow pv w cells with
                         | Err e => (w, Some e)
                         | Ok w' => write_items pv strict cols w' rest
                         end
           end
  end.
(** The content of the file afterwards, and the number of rows or the exception.  The file is truncated by
    opening it; what was written before an exception is flushed when the file is closed. *)
Definition table_write (pv : pyver) (lim : N) (d : dialect) (strict : bool) (cols : list tcol)
  (before : option pystr) (items : list item) : option pystr * res nat :=
  match effective_kw (Some d) kw0 with
  | Err e => (before, Err e)
  | Ok k =>
      match writer_open lim (Some d) kw0 with
      | Err e => (Some [], Err e)
      | Ok w =>
          let r := if d_header d then
                     match writerow pv w (map CStr (colnames cols)) with
                     | Err e => (w, Some e)
                     | Ok w1 => write_items pv strict cols w1 items
                     end
                   else write_items pv strict cols w items in
          (Some (file_text (Some d) (w_out (fst r))),
           match snd r with Some e => Err e | None => Ok (length items) end)
      end
  end.

(** ** check_primary_key: metadata.py:1280-1298 *)
(** Python's == between scalars; hash() agrees with it *)
Variable veq : V -> V -> bool.
Definition pv_eq (a b : pyval V) : bool :=
  match a, b with PNone, PNone => true | POne x, POne y => veq x y | _, _ => false end.
Definition hashable (a : pyval V) : bool := match a with PList _ => false | _ => true end.
Fixpoint key_eq (a b : list (pyval V)) : bool :=
  match a, b with
  | [], [] => true
  | x :: a', y :: b' => pv_eq x y && key_eq a' b'
  | _, _ => false
  end.
(** operator.itemgetter, as a list of values *)
Definition get_key (ks : list pystr) (d : dict) : res (list (pyval V)) :=
  mapM (fun k => match dget str_eqb d k with Some v => Ok v | None => Err KeyError end) ks.
(** the loop: messages (by line) and the outcome *)
Fixpoint pk_loop (log : bool) (pk : list pystr) (seen : list (list (pyval V))) (success : bool) (rows : list (nat * dict)) (endr : option exn)
  : list nat * res bool :=
  match rows with
  | [] => ([], match endr with Some e => Err e | None => Ok success end)
  | (line, d) :: rest =>
      match get_key pk d with
      | Err e => ([], Err e)
      | Ok key =>
          if negb (forallb hashable key) then ([], Err TypeError)
          else if existsb (key_eq key) seen then
            if log then let r := pk_loop log pk seen false rest endr in (line :: fst r, snd r)
            else ([], Err ValueError)
          else pk_loop log pk (key :: seen) success rest endr
      end
  end.
Definition check_primary_key (log : bool) (pk : option (list pystr)) (o : iterout) : list nat * res bool :=
  match pk with
  | Some (k :: ks) => pk_loop log (k :: ks) [] true (io_rows o) (io_end o)
  | _ => ([], Ok true)
  end.
End Table.
Arguments tcol : clear implicits.
Arguments item : clear implicits.
Arguments dict : clear implicits.
