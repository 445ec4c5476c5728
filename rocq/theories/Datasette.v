(** csvw2datasette URL --outdir DIR: __main__.py:89-112; CSVW.__init__ and tablegroup: metadata.py:1644-1690, 1713-1716; Database.__init__: db.py:365-380;
    write_from_tg: db.py:509-514.

    This puts together the models of CSVW (Locate.v, Cli.v) and of the conversion to a database (ToSqlite.v). *)
From Verif Require Import PyStr Json Dsv Datatype Column Schema Table Zip Locate Files Descr Load Group Sql Db DbSql Sqlite DbWrite Cli ToSqlite JsonText.

(** The two files in the directory: datasette.db and datasette-metadata.json *)
Record outdir := { od_db : option db; od_md : option pystr }.

Section Datasette.
Variables (W : world value) (sc : scalars value) (expand : pystr -> dict value -> res pystr) (lim : N) (w : web) (env : fenv) (stem : pystr -> pystr) (P : py_fns) (St : store_fns).
Variable bound_str : value -> pystr.
Notation mobj := (mobj value).

(** ** CSVW(url), without validation: metadata.py:1644-1690 *)
(** the group, if the metadata is that of a group, the tables, as objects, with their keys, and with how they are read; common_props *)
Record source := { so_group : option mobj; so_objects : list mobj; so_keyed : list (@ktable value); so_tables : list (@gtable value); so_common : list (pystr * json) }.
Definition csvw_source (fs : files) (url : pystr) : res source :=
  op <- csvw_open w url None ;;
  j <- (if is_url url then from_url_data env stem url (op_md op) else Ok (JObj (op_md op))) ;;
  if op_group op then
    o <- fromvalue W (TableGroup_class W) j ;;
    _ <- (if is_url url then ts <- group_of W (load_dtype W) sc expand lim env fs false url o ;; validate_schema_strict ts else Ok tt) ;;
    ts <- group_of W (load_dtype W) sc expand lim env fs true url o ;;
    ks <- mapM (load_keyed (load_dtype W) true (Some o)) (group_tables o) ;;
    Ok {| so_group := Some o; so_objects := group_tables o; so_keyed := ks; so_tables := ts; so_common := o_common o |}
  else
    o <- fromvalue W (Table_class W) j ;;
    t <- Cli.table_of (load_dtype W) sc expand lim env fs (op_no_header op) url o ;;
    k <- load_keyed (load_dtype W) true None o ;;
    Ok {| so_group := None; so_objects := [o]; so_keyed := [k]; so_tables := [t]; so_common := o_common o |}.
(** Database(csvw.tablegroup, fname): db.py:365-380 *)
Definition source_specs (s : source) : res (list tablespec) :=
  dts <- mapM (fun x => dtable_of bound_str (so_group s) (fst x) (snd x)) (combine (so_objects s) (so_keyed s)) ;;
  schema true dts.
(** csvw.tablegroup.read(): metadata.py:1499-1503, 1537-1538 *)
Definition named_tables (ts : list (@gtable value)) : list (pystr * @gtable value) := dset_all str_eqb [] (map (fun t => (g_name t, t)) ts).
Definition source_read (ts : list (@gtable value)) : res (list (pystr * list (dict value))) :=
  mapM (fun nt => rows <- all_rows (g_iter (snd nt) false) ;; Ok (fst nt, rows)) (named_tables ts).
(** what is passed to Database.write *)
Definition datasette_prepare (fs : files) (url : pystr) : res (list tablespec * list (pystr * list (dict value)) * list (pystr * json)) :=
  s <- csvw_source fs url ;;
  tables <- source_specs s ;;
  items <- source_read (so_tables s) ;;
  if existsb (fun kr => str_mem (fst kr) argument_names) items then Err TypeError else Ok (tables, items, so_common s).

(** ** The metadata: __main__.py:99-104 *)
Definition datasette_metadata (common : list (pystr * json)) : list (pystr * json) :=
  flat_map (fun k => match dget str_eqb common (lit "dc:" ++ k) with Some v => [(k, v)] | None => [] end) [lit "title"; lit "description"; lit "license"].
(** ** csvw2datasette.  The states of the two files, their final state, and the outcome.  Path.write_text empties the file, then writes to it.
    Simplified: the directory exists, and the two files are others than those that are read; write_text succeeds; what is printed is left out *)
Definition csvw2datasette (fs : files) (url : pystr) (dir : outdir) : list outdir * outdir * res unit :=
  match datasette_prepare fs url with
  | Err e => ([], dir, Err e)
  | Ok (tables, items, common) =>
      match write_file P St name_translator false false tables items (od_db dir) with
      | (st, final, Err e) => (map (fun f => {| od_db := f; od_md := od_md dir |}) st, {| od_db := final; od_md := od_md dir |}, Err e)
      | (st, final, Ok _) =>
          let md := dumps indented (JObj (datasette_metadata common)) in
          (map (fun f => {| od_db := f; od_md := od_md dir |}) st ++ [{| od_db := final; od_md := Some [] |}; {| od_db := final; od_md := Some md |}],
           {| od_db := final; od_md := Some md |}, Ok tt)
      end
  end.
(** Database(CSVW(url).tablegroup, dir / 'datasette.db').read(): db.py:437-491 *)
Definition datasette_read (fs : files) (url : pystr) (D : db) : res (list (pystr * list outrow)) :=
  s <- csvw_source fs url ;;
  tables <- source_specs s ;;
  read P St name_translator D tables (map fst (named_tables (so_tables s))).
End Datasette.
