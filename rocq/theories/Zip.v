(** Reading tables from zip archives and URLs; writing zipped tables.  metadata.py:1333-1351, 1266-1275. *)
From Verif Require Import PyStr PyCsv Dsv Column Schema Table.

(** ** Text handles *)
(** io.TextIOWrapper(binary) with its default newline=None, as in metadata.py:1335-1336 and :1344-1346: '\r\n' and '\r' are read as '\n' *)
Fixpoint universal (t : pystr) : pystr :=
  match t with
  | [] => []
  | c :: t' =>
      if c =? CR then LF :: match t' with c2 :: t'' => if c2 =? LF then universal t'' else universal t' | [] => [] end
      else c :: universal t'
  end.
(** encoding=dialect.encoding (not python_encoding): 'UTF-8-BOM' is no Python codec; with 'utf-8' a BOM is kept.
    Simplified: other encodings are known and do not treat U+FEFF specially; [file] is the decoded content, including a BOM. *)
Definition open_handle (d : dialect) (file : pystr) : res pystr :=
  if str_eqb (d_encoding d) (lit "UTF-8-BOM") then Err LookupError
  else Ok (universal (if str_eqb (d_encoding d) (lit "utf-8-sig") then strip_bom file else file)).
(** UnicodeReaderWithLineNumber(handle, dialect=dialect): dsv.py:200-212.  The rows and how they end *)
Definition handle_rows (lim : N) (d : dialect) (file : pystr) : res (stream (list pystr)) :=
  h <- open_handle d file ;; reader_rows_lines lim (Some d) kw0 (lines h).
Definition handle_with_line_number (lim : N) (d : dialect) (file : pystr) : res (stream (nat * list pystr)) :=
  s <- handle_rows lim d file ;; Ok (map (fun x => (S (fst x), snd x)) (fst (reader_iter (Some d) (fst s))), snd s).

Section Zip.
Context {V : Type} (sc : scalars V) (expand : pystr -> dict V -> res pystr).
(** iterdicts, given the rows of the reader: metadata.py:1352-1455, as Table.iterdicts (see [iterdicts_reader]) *)
Definition iter_reader (d : dialect) (lang : pystr) (strict log : bool) (cols : list (tcol V)) (r : res (stream (nat * list pystr))) : iterout :=
  match r with
  | Err e => io_err [] e
  | Ok (rows, endr) =>
      if d_header d then
        match rows with
        | [] => {| io_rows := []; io_msgs := []; io_warns := []; io_end := endr |}
        | (_, hdr) :: rest => iter_data sc expand strict log cols hdr (if strict then [] else header_warnings lang cols hdr) rest endr
        end
      else iter_data sc expand strict log cols (colnames cols) [] rows endr
  end.

(** ** Files *)
(** a text file, a zip archive with the members' names and texts, or a file that is neither (a partly written archive) *)
Inductive entry := Plain (text : pystr) | Archive (members : list (pystr * pystr)) | Broken.
Definition files : Type := pystr -> option entry.
Definition put (fs : files) (p : pystr) (e : option entry) : files := fun q => if str_eqb q p then e else fs q.
(** fpath.name, for paths without '.' and '..' and '//' *)
Definition basename (p : pystr) : pystr := last (split (lit "/") p) [].
Definition zip_path (p : pystr) : pystr := p ++ lit ".zip".
(** metadata.py:1337-1349 for a local path.  OtherError: FileNotFoundError, BadZipFile; reading a zip archive as text is not modelled *)
Definition iter_file (lim : N) (d : dialect) (lang : pystr) (strict log : bool) (cols : list (tcol V)) (fs : files) (p : pystr) : iterout :=
  match fs p with
  | Some (Plain t) => iterdicts sc expand lim d lang strict log cols t
  | Some _ => io_err [] OtherError
  | None =>
      match fs (zip_path p) with
      | Some (Archive ms) =>
          match filter (fun m => endswith (basename p) (fst m)) ms with
          | m :: _ => iter_reader d lang strict log cols (handle_with_line_number lim d (snd m))
          | [] => io_err [] IndexError
          end
      | _ => io_err [] OtherError
      end
  end.
(** requests.get(url).content: metadata.py:1334-1336 *)
Definition iter_url (lim : N) (d : dialect) (lang : pystr) (strict log : bool) (cols : list (tcol V)) (content : pystr) : iterout :=
  iter_reader d lang strict log cols (handle_with_line_number lim d content).

(** metadata.py:1244-1275: write to the path p.  The states of the file system from the moment the text file is complete:
    archive opened, archive complete, text file removed *)
Definition written (p t : pystr) (fs : files) : files := put fs p (Some (Plain t)).
Definition zip_states (p t : pystr) (fs : files) : list files :=
  [written p t fs;
   put (written p t fs) (zip_path p) (Some Broken);
   put (written p t fs) (zip_path p) (Some (Archive [(basename p, t)]));
   put (put (written p t fs) (zip_path p) (Some (Archive [(basename p, t)]))) p None].
Definition zip_write (pv : pyver) (lim : N) (d : dialect) (strict zipped : bool) (cols : list (tcol V)) (fs : files) (p : pystr) (items : list (item V)) : files * res nat :=
  let before := match fs p with Some (Plain t) => Some t | _ => None end in
  match table_write sc pv lim d strict cols before items with
  | (Some t, Ok n) => (if zipped then last (zip_states p t fs) fs else written p t fs, Ok n)
  | (Some t, Err e) => (written p t fs, Err e)
  | (None, r) => (fs, r)
  end.
End Zip.
