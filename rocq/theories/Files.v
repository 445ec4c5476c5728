(** Files of a table group: where they are, TableGroup.read, write and copy, from_file and to_file.
    metadata.py:301-312, 1081-1091, 1106-1137, 1218-1223, 1244-1247, 1327, 1499-1538. *)
From Verif Require Import PyStr PyCsv Dsv Json Column Schema Table Zip Locate.

(** ** pathlib.PosixPath *)
(** The parts of a path as text.  Simplified: exactly two leading slashes count as one. *)
Definition parts (s : pystr) : list pystr := filter (fun c => negb (str_eqb c [] || str_eqb c (lit "."))) (split (lit "/") s).
Definition is_abs (s : pystr) : bool := startswith (lit "/") s.
Definition path_str (a : bool) (l : list pystr) : pystr := if a then lit "/" ++ join (lit "/") l else match l with [] => lit "." | _ => join (lit "/") l end.
(** str(Path(s)) *)
Definition norm (s : pystr) : pystr := path_str (is_abs s) (parts s).
(** str(Path(b) / s) *)
Definition joinpath (b s : pystr) : pystr := if is_abs s then norm s else path_str (is_abs b) (parts b ++ parts s).
(** str(Path(p).parent), Path(p).name *)
Definition parent (p : pystr) : pystr := path_str (is_abs p) (removelast (parts p)).
Definition path_name (p : pystr) : pystr := last (parts p) [].

(** ** The surroundings *)
(** Paths are compared as text: simplified, no symbolic links and no '..' in paths; no directory is made or removed. *)
Record fenv := {
  fe_isdir : pystr -> bool;                  (* Path.is_dir *)
  fe_join : pystr -> pystr -> pystr;         (* urllib.parse.urljoin *)
  fe_get : pystr -> res pystr;               (* requests.get(url).content, decoded *)
  fe_dumps : json -> pystr;                  (* json.dump(data, f, indent=4, separators=(',', ': ')) *)
  fe_loads : pystr -> option json;           (* json.load; None: JSONDecodeError *)
}.

Section Files.
Context {V : Type} (sc : scalars V) (expand : pystr -> dict V -> res pystr).
Variables (env : fenv) (pv : pyver) (lim : N).

(** a table: url, dialect, language, columns, and '@base' of its own @context *)
Record ftable := { t_url : pystr; t_dialect : option dialect; t_lang : pystr; t_cols : list (tcol V); t_ctx : option pystr }.
(** a group: tables, dialect, '@base', '@base' of @context, _fname, and asdict() *)
Record fgroup := { gr_tables : list ftable; gr_dialect : option dialect; gr_base : option pystr; gr_ctx : option pystr; gr_fname : option pystr; gr_doc : res json }.

(** ** Locations *)
Inductive base := BNone | BPath (p : pystr) | BUrl (s : pystr).
(** a URL, or a path as text *)
Inductive loc := Web (u : pystr) | Local (p : pystr).
Definition of_text (s : pystr) : loc := if is_url s then Web s else Local (norm s).
(** metadata.py:301-312 Link.resolve.  urljoin(None, s) is s *)
Definition resolve (b : base) (s : pystr) : loc :=
  match b with
  | BPath p => if is_url s then Web s else Local (joinpath (if fe_isdir env p then p else parent p) s)
  | BUrl u => of_text (fe_join env u s)
  | BNone => of_text s
  end.
(** the path that open() and shutil get *)
Definition open_path (l : loc) : pystr := match l with Web u => norm u | Local p => p end.
(** metadata.py:1119-1137 base: ctx is '@base' in the @context of the table or group itself, the rest is the group's *)
Definition base_of (g : fgroup) (ctx : option pystr) : base :=
  match gr_base g with
  | Some b => BUrl (match ctx with Some (c :: s) => fe_join env b (c :: s) | _ => b end)
  | None => match gr_fname g with Some f => BPath (parent f) | None => BNone end
  end.
(** metadata.Dialect(): metadata.py:186-210, like dsv_dialects.Dialect() but without comments *)
Definition meta_dialect : dialect :=
  {| d_encoding := lit "utf-8"; d_lineTerminators := [[CR; LF]; [LF]]; d_quoteChar := Some [34];
     d_doubleQuote := true; d_skipRows := 0; d_commentPrefix := None; d_header := true;
     d_headerRowCount := 1; d_delimiter := lit ","; d_skipColumns := 0; d_skipBlankRows := false;
     d_skipInitialSpace := false; d_trim := TrimFalse |}.
(** metadata.py:1222-1223 *)
Definition dialect_of (g : fgroup) (t : ftable) : dialect :=
  match t_dialect t with Some d => d | None => match gr_dialect g with Some d => d | None => meta_dialect end end.
(** metadata.py:1218-1220, 1537-1538 tabledict *)
Definition tables_by_name (g : fgroup) : list (pystr * ftable) := dset_all str_eqb [] (map (fun t => (t_url t, t)) (gr_tables g)).

(** ** read: metadata.py:1499-1503, with 1326-1349 *)
Definition table_iter (g : fgroup) (fs : files) (t : ftable) : iterout :=
  match resolve (base_of g (t_ctx t)) (t_url t) with
  | Web u => match fe_get env u with
             | Ok c => iter_url sc expand lim (dialect_of g t) (t_lang t) true false (t_cols t) c
             | Err e => io_err [] e
             end
  | Local p => iter_file sc expand lim (dialect_of g t) (t_lang t) true false (t_cols t) fs p
  end.
(** list(...) *)
Definition all_rows (o : @iterout V) : res (list (dict V)) := match io_end o with Some e => Err e | None => Ok (map snd (io_rows o)) end.
Definition group_read (g : fgroup) (fs : files) : res (list (pystr * list (dict V))) :=
  mapM (fun kt => rows <- all_rows (table_iter g fs (snd kt)) ;; Ok (fst kt, rows)) (tables_by_name g).

(** ** write: metadata.py:1505-1522 *)
(** a file can be opened for writing.  Permissions and the space on the disk are not modelled *)
Definition creatable (p : pystr) : bool := fe_isdir env (parent p) && negb (fe_isdir env p).
(** metadata.py:1225-1278 with base given; OtherError: FileNotFoundError, IsADirectoryError.  io.open comes after the check of the dialect (see Table.table_write) *)
Definition write_table (g : fgroup) (strict zipped : bool) (fs : files) (t : ftable) (p : pystr) (items : list (item V)) : files * res nat :=
  if creatable p then zip_write sc pv lim (dialect_of g t) strict zipped (t_cols t) fs p items
  else (fs, match effective_kw (Some (dialect_of g t)) kw0 with Err e => Err e | Ok _ => Err OtherError end).
(** the path of a table under the directory of the metadata *)
Definition target (dir : pystr) (t : ftable) : pystr := open_path (resolve (BPath dir) (t_url t)).
Fixpoint write_tables (g : fgroup) (dir : pystr) (strict zipped : bool) (fs : files) (items : list (pystr * list (item V))) : files * res unit :=
  match items with
  | [] => (fs, Ok tt)
  | (n, rows) :: rest =>
      match dget str_eqb (tables_by_name g) n with
      | None => (fs, Err KeyError)
      | Some t => match write_table g strict zipped fs t (target dir t) rows with
                  | (fs', Ok _) => write_tables g dir strict zipped fs' rest
                  | (fs', Err e) => (fs', Err e)
                  end
      end
  end.
(** metadata.py:1106-1117 *)
Definition to_file (g : fgroup) (fs : files) (f : pystr) : files * res unit :=
  match gr_doc g with
  | Err e => (fs, Err e)
  | Ok j => if creatable f then (put fs f (Some (Plain (fe_dumps env j))), Ok tt) else (fs, Err OtherError)
  end.
Definition group_write (g : fgroup) (strict zipped : bool) (fs : files) (fname : pystr) (items : list (pystr * list (item V))) : files * res unit :=
  let f := norm fname in
  match write_tables g (parent f) strict zipped fs items with
  | (fs', Ok _) => to_file g fs' f
  | r => r
  end.
(** The files that the steps of group_write open for writing, replace or remove; what an interruption may leave: everything is as after the completed steps, except for the
    files of the step that was interrupted *)
Definition touched (zipped : bool) (p : pystr) : list pystr := if zipped then [p; zip_path p] else [p].
Inductive interrupted (g : fgroup) (strict zipped : bool) (fs : files) (fname : pystr) (items : list (pystr * list (item V))) (s : files) : Prop :=
| in_table pre n rows post t fs1 : items = pre ++ (n, rows) :: post -> write_tables g (parent (norm fname)) strict zipped fs pre = (fs1, Ok tt) -> dget str_eqb (tables_by_name g) n = Some t ->
    (forall q, ~ In q (touched zipped (target (parent (norm fname)) t)) -> s q = fs1 q) -> interrupted g strict zipped fs fname items s
| in_metadata fs1 : write_tables g (parent (norm fname)) strict zipped fs items = (fs1, Ok tt) ->
    (forall q, q <> norm fname -> s q = fs1 q) -> interrupted g strict zipped fs fname items s.

(** ** from_file: metadata.py:1081-1091.  [load]: TableGroup.fromvalue, see Descr.v (C35) *)
Variable load : json -> res fgroup.
Definition with_fname (g : fgroup) (f : pystr) : fgroup :=
  {| gr_tables := gr_tables g; gr_dialect := gr_dialect g; gr_base := gr_base g; gr_ctx := gr_ctx g; gr_fname := Some f; gr_doc := gr_doc g |}.
(** a local file: other files than text files are not modelled any further *)
Definition from_file (fs : files) (fname : pystr) : res fgroup :=
  match fs (norm fname) with
  | Some (Plain t) => match fe_loads env t with
                      | Some j => g <- load j ;; Ok (with_fname g (norm fname))
                      | None => Err ValueError
                      end
  | _ => Err OtherError
  end.

(** ** copy: metadata.py:1524-1535 *)
(** shutil.copy(src, dst); OtherError: FileNotFoundError, IsADirectoryError, SameFileError *)
Definition copy_file (fs : files) (src dst : pystr) : files * res unit :=
  let dst := if fe_isdir env dst then joinpath dst (basename src) else dst in
  match fs src with
  | Some e => if str_eqb src dst || negb (creatable dst) then (fs, Err OtherError) else (put fs dst (Some e), Ok tt)
  | None => (fs, Err OtherError)
  end.
Fixpoint copy_tables (g : fgroup) (dest : pystr) (fs : files) (ts : list ftable) : files * res unit :=
  match ts with
  | [] => (fs, Ok tt)
  | t :: ts => match copy_file fs (open_path (resolve (base_of g (gr_ctx g)) (t_url t))) (target dest t) with
               | (fs', Ok _) => copy_tables g dest fs' ts
               | r => r
               end
  end.
(** the files, the group (with its _fname) and the outcome *)
Definition group_copy (g : fgroup) (fs : files) (dest : pystr) : files * fgroup * res unit :=
  match copy_tables g (norm dest) fs (gr_tables g) with
  | (fs', Err e) => (fs', g, Err e)
  | (fs', Ok _) =>
      match gr_fname g with
      | None => (fs', g, Err AttributeError)
      | Some f => let f' := joinpath (norm dest) (path_name f) in
                  let r := to_file g fs' f' in (fst r, with_fname g f', snd r)
      end
  end.
End Files.
Arguments ftable : clear implicits.
Arguments fgroup : clear implicits.
