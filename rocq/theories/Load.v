(** From description objects (Descr.v) to what reading and writing use (Column.v, Schema.v, Table.v, Files.v): the
    attributes that Column.read, Column.write, Table.iterdicts, Table.write and TableGroup.read look up.

    Values that the models of reading do not have give OtherError here: URI templates that are no strings, lists as
    separators, keys that are no strings, dialects with a list as quoteChar or other than strings as lineTerminators,
    an '@base' that is no string, and a tableSchema that is a link which could not be followed. *)
From Verif Require Import PyStr Dsv Json Dialects NatLang Datatype Column Schema Table Files Descr.

Section Load.
Context {B V : Type} (W : world B).
(** what a Datatype object does with cells: metadata.py:640-677; see C14-C23 for the datatypes *)
Variable dtype_of : mobj B -> dtype V.

(** the inherited properties, metadata.py:708-734, in order of definition *)
Definition a_template (v : mval B) : res (option pystr) :=
  match v with MJ JNull => Ok None | MUri s => Ok (Some s) | _ => Err OtherError end.
Definition a_datatype (v : mval B) : option (option (dtype V)) :=
  match v with MObj o => Some (Some (dtype_of o)) | MJ JNull => None | _ => Some None end.
Definition a_str (v : mval B) : pystr := match v with MJ (JStr s) => s | _ => [] end.
Definition a_strs (v : mval B) : list pystr := match v with MJ (JList l) => strings l | _ => [] end.
Definition a_required (v : mval B) : option bool := match v with MJ JNull => None | MJ j => Some (truthy j) | _ => None end.
Definition a_separator (v : mval B) : res (option pystr) :=
  match v with MJ JNull => Ok None | MJ (JStr s) => Ok (Some s) | _ => Err OtherError end.
Definition load_desc (o : mobj B) : res (desc V) :=
  match o_vals o with
  | about :: dt :: def :: lang :: null :: _ :: prop :: req :: sep :: _ :: val :: _ =>
      about' <- a_template about ;;
      prop' <- a_template prop ;;
      sep' <- a_separator sep ;;
      val' <- a_template val ;;
      Ok {| de_aboutUrl := about'; de_datatype := a_datatype dt; de_default := a_str def; de_lang := a_str lang; de_null := a_strs null;
            de_propertyUrl := prop'; de_required := a_required req; de_separator := sep'; de_valueUrl := val' |}
  | _ => Err OtherError (* unreachable *)
  end.

(** metadata.py:1681-1684: CSVW() takes away names that are not allowed, after everything was built *)
Definition csvw_name (csvw : bool) (n : option pystr) : option pystr :=
  match n with Some (x :: s) => if csvw && bad_name (x :: s) then None else n | _ => n end.
(** Column: metadata.py:758-781 *)
Definition load_column (csvw : bool) (o : mobj B) : res (column V) :=
  d <- load_desc o ;;
  Ok {| c_desc := d; c_name := csvw_name csvw (match col_name o with JStr s => Some s | _ => None end);
        c_titles := col_titles o; c_virtual := col_virtual o; c_number := o_num o |}.

Definition all_str (j : json) : res (list pystr) :=
  match j with JList l => mapM (fun x => match x with JStr s => Ok s | _ => Err OtherError end) l | _ => Err OtherError end.
(** ForeignKey: metadata.py:855-878 *)
Definition load_fkey (k : fkobj) : res fkey :=
  cols <- all_str (k_cols k) ;; refs <- all_str (k_refcols k) ;;
  Ok {| fk_cols := cols; fk_resource := k_resource k; fk_schemaReference := k_schemaReference k; fk_refcols := refs |}.
Definition load_pk (j : json) : res (option (list pystr)) :=
  match j with JNull => Ok None | _ => l <- all_str j ;; Ok (Some l) end.
(** Schema: metadata.py:908-931 *)
Definition load_schema (csvw : bool) (o : mobj B) : res (schema V) :=
  match skipn 11 (o_vals o) with
  | [MObjs cols; MFks fks; MJ pk; _] =>
      d <- load_desc o ;;
      cs <- mapM (load_column csvw) cols ;;
      pk' <- load_pk pk ;;
      fks' <- mapM load_fkey fks ;;
      Ok {| s_desc := d; s_columns := cs; s_primaryKey := pk'; s_foreignKeys := fks' |}
  | _ => Err OtherError
  end.

(** the value of [dialect]: metadata.py:1035-1038, 1056 *)
Definition load_dialect (v : mval B) : res (option dialect) :=
  match v with
  | MJ JNull => Ok None
  | MDialect a => match to_dialect a with Some d => Ok (Some d) | None => Err OtherError end
  | _ => Err OtherError
  end.
(** the last '@base' in the @context: metadata.py:1125-1128 *)
Definition context_base (at_ : list (pystr * json)) : res (option pystr) :=
  match dget str_eqb at_ (lit "context") with
  | None | Some (JStr _) | Some (JObj _) => Ok None
  | Some (JList l) => match fold_left ctx_base l JNull with JNull => Ok None | JStr s => Ok (Some s) | _ => Err OtherError end
  | Some _ => Err TypeError
  end.
(** the schema of a table: attribute 14 *)
Definition table_schema (csvw : bool) (o : mobj B) : res (schema V) :=
  match nth 14 (o_vals o) (MJ JNull) with MObj s => load_schema csvw s | _ => Err OtherError end.
(** Table, with its group: metadata.py:1055-1059 (_parent of the schema), 951 (of the columns), 1490-1493 (of the tables) *)
Definition load_table (csvw : bool) (group : option (mobj B)) (o : mobj B) : res (ftable V) :=
  s <- table_schema csvw o ;;
  td <- load_desc o ;;
  gd <- match group with None => Ok [] | Some g => d <- load_desc g ;; Ok [d] end ;;
  cols <- tcols_of s (td :: gd) ;;
  dl <- load_dialect (nth 11 (o_vals o) (MJ JNull)) ;;
  ctx <- context_base (o_at o) ;;
  match nth 16 (o_vals o) (MJ JNull) with
  | MLink u => Ok {| t_url := u; t_dialect := dl; t_lang := de_lang td; t_cols := cols; t_ctx := ctx |}
  | _ => Err OtherError (* unreachable: metadata.py:1214-1217 *)
  end.
Definition at_str (at_ : list (pystr * json)) (k : pystr) : res (option pystr) :=
  match dget str_eqb at_ k with None => Ok None | Some (JStr s) => Ok (Some s) | Some _ => Err OtherError end.
(** TableGroup, not yet saved: metadata.py:1474-1493; gr_doc: metadata.py:1106-1117 *)
Definition load_group (csvw : bool) (o : mobj B) : res (fgroup V) :=
  match nth 17 (o_vals o) (MJ JNull) with
  | MObjs ts =>
      tables <- mapM (load_table csvw (Some o)) ts ;;
      dl <- load_dialect (nth 11 (o_vals o) (MJ JNull)) ;;
      b <- at_str (o_at o) (lit "base") ;;
      ctx <- context_base (o_at o) ;;
      Ok {| gr_tables := tables; gr_dialect := dl; gr_base := b; gr_ctx := ctx; gr_fname := None;
            gr_doc := (d <- asdict (TableGroup_class W) true o ;; Ok (JObj d)) |}
  | _ => Err OtherError (* unreachable *)
  end.
(** TableGroup.fromvalue and Table.fromvalue: metadata.py:469-471 *)
Definition group_from_json (csvw : bool) (j : json) : res (fgroup V) := o <- fromvalue W (TableGroup_class W) j ;; load_group csvw o.
Definition table_from_json (csvw : bool) (j : json) : res (ftable V) := o <- fromvalue W (Table_class W) j ;; load_table csvw None o.
End Load.

(** Datatype.read and Datatype.formatted, from the attributes: metadata.py:640-677.  Lists as in Values.mk_dtype *)
Definition bound_in {B} (v : mval B) : option B := match v with MBound b => Some b | _ => None end.
Definition load_dtype {B} (W : world B) (o : mobj B) : dtype B :=
  match o_vals o with
  | [MJ (JStr base); MJ fmt; len; minl; maxl; mn; mx; mni; mxi; mne; mxe] =>
      let c := getdef (dget str_eqb DATATYPES base) CString in
      let F := {| fc_length := opt_z len; fc_minLength := opt_z minl; fc_maxLength := opt_z maxl; fc_minimum := bound_in mn; fc_maximum := bound_in mx;
                  fc_minInclusive := bound_in mni; fc_maxInclusive := bound_in mxi; fc_minExclusive := bound_in mne; fc_maxExclusive := bound_in mxe |} in
      {| Column.dt_base := base; dt_reads := fun s => dt_read (w_ops W) (w_parse W base fmt) c F (JStr s); dt_noisy := fun s => w_noisy W base fmt (JStr s);
         dt_fmt := fun v => w_formatted W base fmt v; dt_fmt_list := fun _ => Err OtherError |}
  | _ => {| Column.dt_base := []; dt_reads := fun _ => Err OtherError; dt_noisy := fun _ => false; dt_fmt := fun _ => Err OtherError; dt_fmt_list := fun _ => Err OtherError |} (* unreachable *)
  end.
