(** csvw2markdown URL: __main__.py:146-159; TableLike.from_file, from_url: metadata.py:1081-1104.

    This puts together the models of get_json (Locate.v), of from_url (Cli.v), of descriptions (Descr.v, Load.v) and of metadata2markdown (Markdown.v). *)
From Verif Require Import PyStr Json Dsv Dec Dialects Datatype Names Column Schema Table Zip Locate Files Descr Load Cli Frictionless Markdown.

Section ToMd.
Context {B : Type} (W : world B).
(** see Markdown.v *)
Variables (U : unicode) (str_of : json -> pystr) (space word : N -> bool).
Variables (w : web) (env : fenv) (stem : pystr -> pystr).
(** str(minimum), str(maximum) of a datatype: utils.py:182-185 *)
Variable bound_str : B -> pystr.
(** Path.exists(): utils.py:217.  Simplified: it does not raise *)
Variable present : pystr -> bool.

(** ** What metadata2markdown looks up, in the description objects.  As in Load.v, values that the model of it does not have - lists as names or separators,
    keys that are no strings, dialects with a list as quoteChar - give OtherError *)
(** col.datatype, with its minimum and maximum: utils.py:173-185; metadata.py:520-536 *)
Definition md_bound (v : mval B) : option (bool * pystr) := match v with MBound b => Some (v_truthy (w_ops W) b, bound_str b) | _ => None end.
Definition md_type (v : mval B) : option mdatatype :=
  match v with
  | MObj o => match o_vals o with
              | MJ (JStr base) :: MJ fmt :: _ :: _ :: _ :: mn :: mx :: _ => Some {| md_base := base; md_format := fmt; md_min := md_bound mn; md_max := md_bound mx |}
              | _ => None (* unreachable: metadata.py:559-620 *)
              end
  | _ => None
  end.
(** a column: utils.py:172-203; metadata.py:708-734, 758-781 *)
Definition md_column (o : mobj B) : res mcol :=
  url <- a_template (nth 6 (o_vals o) (MJ JNull)) ;;
  sep <- a_separator (nth 8 (o_vals o) (MJ JNull)) ;;
  name <- match nth 11 (o_vals o) (MJ JNull) with MJ (JStr s) => Ok (Some s) | MJ JNull => Ok None | _ => Err OtherError end ;;
  Ok {| mc_name := name; mc_url := url; mc_datatype := md_type (nth 1 (o_vals o) (MJ JNull)); mc_sep := sep; mc_props := o_common o |}.
(** dialect.asdict(): utils.py:222-224; dsv_dialects.py:144-145 *)
Definition md_dialect (v : mval B) : res (option jdict) :=
  match v with
  | MJ JNull => Ok None
  | MDialect a => match to_dialect a with Some _ => Ok (Some (attrs_asdict (meta_dialect_spec W) true a)) | None => Err OtherError end
  | _ => Err OtherError
  end.
Definition md_fkey (k : fkey) : mfk := {| mf_cols := fk_cols k; mf_refcols := fk_refcols k; mf_resource := fk_resource k |}.
(** a table; [dir]: tg._fname.parent, if there is tg._fname: utils.py:211-229 *)
Definition md_table (dir : option pystr) (o : mobj B) : res mtable :=
  s <- table_schema (load_dtype W) false o ;;
  so <- match nth 14 (o_vals o) (MJ JNull) with MObj so => Ok so | _ => Err OtherError end ;;
  cs <- match nth 11 (o_vals so) (MJ JNull) with MObjs cs => Ok cs | _ => Err OtherError end ;;
  cols <- mapM md_column cs ;;
  dl <- md_dialect (nth 11 (o_vals o) (MJ JNull)) ;;
  match nth 16 (o_vals o) (MJ JNull) with
  | MLink u => Ok {| mt_url := u; mt_props := o_common o; mt_dialect := dl; mt_datatype := md_type (nth 1 (o_vals o) (MJ JNull));
                     mt_exists := match dir with Some d => present (joinpath d u) | None => false end;
                     mt_pk := getdef (s_primaryKey s) []; mt_fks := map md_fkey (s_foreignKeys s); mt_cols := cols |}
  | _ => Err OtherError (* unreachable: metadata.py:1214-1217 *)
  end.
(** the group: utils.py:205-211; _fname: metadata.py:1090, the name of the file is that of its path *)
Definition md_group (url : pystr) (o : mobj B) : res mgroup :=
  match nth 17 (o_vals o) (MJ JNull) with
  | MObjs ts =>
      tables <- mapM (md_table (option_map parent (fname_of url))) ts ;;
      dl <- md_dialect (nth 11 (o_vals o) (MJ JNull)) ;;
      Ok {| mg_props := o_common o; mg_fname := option_map path_name (fname_of url); mg_dialect := dl; mg_tables := tables |}
  | _ => Err OtherError (* unreachable *)
  end.
(** TableGroup.from_file(url): metadata.py:1081-1104.  Simplified: metadata that are no object are OtherError, and so are "tables" from the web that are no list,
    and a base that is no string *)
Definition group_from (url : pystr) : res (mobj B) :=
  r <- get_json w url ;;
  match r with
  | Some (JObj md) =>
      j <- (if is_url url then from_url_data env stem url md else Ok (JObj md)) ;;
      o <- fromvalue W (TableGroup_class W) j ;; _ <- at_str (o_at o) (lit "base") ;; Ok o
  | Some _ => Err OtherError
  | None => Err ValueError
  end.
(** csvw2markdown: __main__.py:146-159.  What is printed *)
Definition csvw2markdown (url : pystr) : res pystr :=
  o <- group_from url ;;
  g <- md_group url o ;;
  metadata2markdown U str_of space word g true.
End ToMd.
