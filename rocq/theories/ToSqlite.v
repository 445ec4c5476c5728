(** csvw2sqlite URL OUTPUT: __main__.py:126-143; Database.__init__: db.py:365-380; write_from_tg: db.py:509-514.

    This puts together the models of descriptions (Descr.v, Load.v), of the files of a group (Files.v), of the schema of the database (Db.v) and of writing
    and reading a database (DbWrite.v).  Values are those of Datatype.v, also as bounds of datatypes. *)
From Verif Require Import PyStr Json Dsv Datatype Column Schema Table Zip Files Descr Load Group Sql Db DbSql Sqlite DbWrite Cli.

Section ToSqlite.
Variables (W : world value) (sc : scalars value) (expand : pystr -> dict value -> res pystr) (lim : N) (env : fenv) (P : py_fns) (St : store_fns).
(** str(minimum), str(maximum) of a datatype: db.py:160-178 *)
Variable bound_str : value -> pystr.
Notation mobj := (mobj value).

(** ** What db.py looks at in the description of a table: db.py:214-263 *)
Definition m_bound (v : mval value) : option pystr := match v with MBound b => Some (bound_str b) | _ => None end.
(** a Datatype: metadata.py:538-557 *)
Definition dtinfo_of (o : mobj) : dtinfo :=
  match o_vals o with
  | [MJ (JStr base); MJ _; len; minl; maxl; mn; mx; _; _; _; _] =>
      {| di_base := base; di_min := m_bound mn; di_max := m_bound mx; di_length := opt_z len; di_minLength := opt_z minl; di_maxLength := opt_z maxl |}
  | _ => {| di_base := []; di_min := None; di_max := None; di_length := None; di_minLength := None; di_maxLength := None |} (* unreachable *)
  end.
(** the attribute datatype, and inherit('datatype'): metadata.py:736-741, db.py:254 *)
Definition m_datatype (o : mobj) : option (option dtinfo) :=
  match nth 1 (o_vals o) (MJ JNull) with MObj d => Some (Some (dtinfo_of d)) | MJ JNull => None | _ => Some None end.
Fixpoint m_inherit (levels : list mobj) : option dtinfo :=
  match levels with
  | [] => None
  | o :: rest => match m_datatype o with Some d => d | None => m_inherit rest end
  end.
(** db.py:253-262.  A separator '' is None here, both are false *)
Definition dcol_of (x : option dtinfo * tcol value) : dcol :=
  {| dc_header := tc_header (snd x); dc_separator := de_separator (c_desc (tc_col (snd x))); dc_inh_separator := st_separator (tc_st (snd x));
     dc_required := st_required (tc_st (snd x)); dc_datatype := fst x |}.
(** db.py:229-252; a reference with neither schemaReference nor resource is an AttributeError *)
Definition dfk_of (k : fkey) : res dfk :=
  match fk_schemaReference k, fk_resource k with
  | None, None => Err AttributeError
  | s, r => Ok {| dk_cols := fk_cols k; dk_schema := match s with Some _ => true | None => false end; dk_resource := getdef r []; dk_refcols := fk_refcols k |}
  end.
(** the column objects of a schema, and those of the table; [group]: the group of the table, unless it is one without any properties *)
Definition schema_columns (o : mobj) : list mobj := match skipn 11 (o_vals o) with MObjs cols :: _ => cols | _ => [] end.
Definition dtable_of (group : option mobj) (table : mobj) (k : ktable) : res dtable :=
  match nth 14 (o_vals table) (MJ JNull) with
  | MObj s =>
      fks <- mapM dfk_of (k_fks k) ;;
      Ok {| dt_name := t_url (k_table k);
            dt_cols := map dcol_of (combine (map (fun c => m_inherit ([c; s; table] ++ match group with Some g => [g] | None => [] end)) (schema_columns s)) (t_cols (k_table k)));
            dt_fks := fks; dt_pk := getdef (k_pk k) [] |}
  | _ => Err OtherError
  end.

(** ** csvw2sqlite *)
(** TableGroup.from_file(url): metadata.py:1081-1091; the group with its tables and their keys *)
Definition group_object (fs : files) (url : pystr) : res mobj :=
  match fs (norm url) with
  | Some (Plain t) => match fe_loads env t with Some j => fromvalue W (TableGroup_class W) j | None => Err ValueError end
  | _ => Err OtherError
  end.
Definition group_tables (o : mobj) : list mobj := match nth 17 (o_vals o) (MJ JNull) with MObjs ts => ts | _ => [] end.
Definition keyed_tables (o : mobj) : res (list (@ktable value)) := mapM (load_keyed (load_dtype W) false (Some o)) (group_tables o).
(** Database(tg, fname): db.py:365-380, 307-343 *)
Definition db_tables (o : mobj) (ks : list ktable) : res (list tablespec) :=
  dts <- mapM (fun x => dtable_of (Some o) (fst x) (snd x)) (combine (group_tables o) ks) ;;
  schema true dts.
(** the names of arguments of write: db.py:516 *)
Definition argument_names : list pystr := [lit "self"; lit "force"; lit "_exists_ok"; lit "_skip_extra"].
(** what is passed to Database.write: the rows of the tables, by their names, as keyword arguments *)
Definition prepare (fs : files) (url : pystr) : res (list tablespec * list (pystr * list (dict value))) :=
  o <- group_object fs url ;;
  ks <- keyed_tables o ;;
  g <- load_group W (load_dtype W) false o ;;
  tables <- db_tables o ks ;;
  items <- group_read sc expand env lim (with_fname g (norm url)) fs ;;
  if existsb (fun kr => str_mem (fst kr) argument_names) items then Err TypeError else Ok (tables, items).
(** the states of the output file, its final state, and the outcome.  Simplified: the output is another file than the metadata and the tables *)
Definition csvw2sqlite (fs : files) (url : pystr) (file : option db) : list (option db) * option db * res unit :=
  match prepare fs url with
  | Ok (tables, items) => write_file P St name_translator true false tables items file
  | Err e => ([], file, Err e)
  end.
(** Database(TableGroup.from_file(url), output).read(), of a database with this content: db.py:437-491 *)
Definition read_back (fs : files) (url : pystr) (D : db) : res (list (pystr * list outrow)) :=
  o <- group_object fs url ;;
  ks <- keyed_tables o ;;
  g <- load_group W (load_dtype W) false o ;;
  tables <- db_tables o ks ;;
  read P St name_translator D tables (map fst (tables_by_name g)).
End ToSqlite.
