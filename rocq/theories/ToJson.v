(** csvw2json URL: __main__.py:115-123; CSVW.__init__ and to_json: metadata.py:1644-1690, 1783-1873.

    This puts together the models of CSVW (Locate.v, Cli.v), of reading files (Files.v, Table.v), of to_json (Csv2json.v) and of json.dumps (JsonText.v). *)
From Verif Require Import PyStr PyCsv Dsv Json Dec NatLang Column Schema Table Zip Locate Files Descr Load Group Jsonld Csv2json Cli.
From Verif Require JsonText.

(** ** What json.dumps gets.  [shows]: the JSON value for a value in a cell; None: json.dumps raises a TypeError (dates, decimals, ... ) *)
Section Render.
Context {V : Type} (shows : V -> option json).
Definition shown_value (v : V) : res json := match shows v with Some j => Ok j | None => Err TypeError end.
Definition shown_item (v : option V) : res json := match v with None => Ok JNull | Some v => shown_value v end.
Fixpoint tree_json (x : tree (option V)) : res json :=
  match x with
  | One v => shown_item v
  | Many l => js <- (fix go l := match l with [] => Ok [] | x :: l => j <- tree_json x ;; js <- go l ;; Ok (j :: js) end) l ;; Ok (JList js)
  end.
Definition oval_json (o : @oval (option V)) : res json := match o with Raw x => tree_json x | Js j => Ok j end.
Definition value_json (v : pyval V) : res json :=
  match v with PNone => Ok JNull | POne x => shown_value x | PList l => js <- mapM shown_item l ;; Ok (JList js) end.
Definition titles_json (t : titles V) : res json :=
  match t with TOne v => value_json v | TMany l => js <- mapM value_json l ;; Ok (JList js) end.
(** a dict *)
Definition items_json {A} (f : A -> res json) (kvs : list (pystr * A)) : res json :=
  l <- mapM (fun kv => j <- f (snd kv) ;; Ok (fst kv, j)) kvs ;; Ok (JObj l).
(** metadata.py:1827-1840 *)
Definition row_json (r : jrow V) : res json :=
  ti <- match jr_titles r with None => Ok [] | Some t => j <- titles_json t ;; Ok [(lit "titles", j)] end ;;
  ds <- mapM (items_json oval_json) (jr_describes r) ;;
  Ok (JObj ([(lit "url", JStr (jr_url r)); (lit "rownum", JInt (Z.of_nat (jr_num r)))] ++ ti ++ [(lit "describes", JList ds)])).
Definition out_json (o : jout V) : res json :=
  match o with OJson j => Ok j | ORows rs => js <- mapM row_json rs ;; Ok (JList js) end.
(** metadata.py:1787-1798 *)
Definition result_json (r : list (pystr * jout V) * list (list (pystr * jout V))) : res json :=
  c <- mapM (fun kv => j <- out_json (snd kv) ;; Ok (fst kv, j)) (fst r) ;;
  ts <- mapM (items_json out_json) (snd r) ;;
  Ok (JObj (dset str_eqb c (lit "tables") (JList ts))).
End Render.

Section ToJson.
Context {B V : Type} (W : world B) (dtype_of : mobj B -> dtype V) (sc : scalars V).
(** what Table.expand, ... do depends on the URL of the table: metadata.py:1140-1176 *)
Variable F : pystr -> json_fns V.
Variables (lim : N) (w : web) (env : fenv) (fs : files) (stem : pystr -> pystr) (shows : V -> option json).

(** str(table.url.resolve(table.base)): metadata.py:1803, 1829 *)
Definition url_text (b : base) (u : pystr) : pystr := match resolve env b u with Web u => u | Local p => p end.
(** ** The attributes of a table that to_json looks up.  [b]: table.base.  Values that Csv2json.v does not have - other titles of rows than strings - give OtherError *)
Definition a_true (v : mval B) : bool := match v with MJ j => truthy j | _ => false end.
Definition jtable_of (group : option (mobj B)) (b : base) (o : mobj B) : res (jtable V) :=
  x <- load_table dtype_of true group o ;;
  s <- table_schema dtype_of true o ;;
  td <- load_desc dtype_of o ;;
  gd <- match group with None => Ok [] | Some g => d <- load_desc dtype_of g ;; Ok [d] end ;;
  so <- match nth 14 (o_vals o) (MJ JNull) with MObj s => Ok s | _ => Err OtherError end ;;
  rt <- match nth 14 (o_vals so) (MJ JNull) with MJ j => all_str j | _ => Err OtherError end ;;
  notes <- match nth 12 (o_vals o) (MJ JNull) with MJ j => Ok j | _ => Err OtherError end ;;
  cols <- match nth 11 (o_vals so) (MJ JNull) with MObjs cs => Ok cs | _ => Err OtherError end ;;
  Ok {| jt_url := url_text b (t_url x); jt_id := dget str_eqb (o_at o) (lit "id"); jt_notes := notes; jt_common := o_common o;
        jt_schema := s_desc s; jt_table := td; jt_outer := gd;
        jt_cols := map (fun cc => {| jc_col := fst cc; jc_suppress := a_true (nth 12 (o_vals (snd cc)) (MJ JNull)) |}) (combine (t_cols x) cols);
        jt_row_titles := rt; jt_suppress := a_true (nth 17 (o_vals o) (MJ JNull)); jt_lang := t_lang x; jt_dialect := meta_dialect; jt_file := [] |}.

(** ** Reading: Table.iterdicts with this base, metadata.py:1326-1427, see Files.table_iter and Cli.iter_at; the comments are table._comments *)
Definition rows_for (b : base) (dl : dialect) (j : jtable V) (x : ftable V) : @iterout V :=
  iter_at sc (jf_expand_row (F (jt_url j))) lim env fs b dl false false
    {| t_url := t_url x; t_dialect := t_dialect x; t_lang := t_lang x; t_cols := map jc_col (jcols j); t_ctx := t_ctx x |}.
Definition raw_rows (b : base) (dl : dialect) (url : pystr) : res (stream (list pystr)) :=
  match resolve env b url with
  | Web u => match fe_get env u with Ok c => handle_rows lim dl c | Err e => Err e end
  | Local p => match fs p with
               | Some (Plain t) => reader_rows lim (Some dl) kw0 t
               | Some _ => Err OtherError
               | None => match fs (zip_path p) with
                         | Some (Archive ms) => match filter (fun m => endswith (basename p) (fst m)) ms with m :: _ => handle_rows lim dl (snd m) | [] => Err IndexError end
                         | _ => Err OtherError
                         end
               end
  end.
Definition comments_for (b : base) (dl : dialect) (url : pystr) : res (list pystr) :=
  s <- raw_rows b dl url ;; Ok (comments_in dl (fst s)).
(** a table to be converted, and how it is read *)
Record jsource := { jo_table : jtable V; jo_checked : ftable V; jo_base : base; jo_dialect : dialect }.
Definition source_of_table (group : option (mobj B)) (b : base) (dl : dialect) (o : mobj B) : res jsource :=
  x <- load_table dtype_of true group o ;;
  j <- jtable_of group b o ;;
  Ok {| jo_table := j; jo_checked := x; jo_base := b; jo_dialect := dl |}.
Definition source_json (nometa : bool) (s : jsource) : res (list (pystr * jout V)) :=
  table_json sc (F (jt_url (jo_table s))) nometa (jo_table s)
    (rows_for (jo_base s) (jo_dialect s) (jo_table s) (jo_checked s)) (comments_for (jo_base s) (jo_dialect s) (t_url (jo_checked s))).

(** ** CSVW(url): metadata.py:1644-1690, as in Cli.csvw_new.  no_metadata, the common properties if it is a group, and the tables *)
Definition json_source (url : pystr) : res (bool * option (list (pystr * json)) * list jsource) :=
  op <- csvw_open w url None ;;
  j <- (if is_url url then from_url_data env stem url (op_md op) else Ok (JObj (op_md op))) ;;
  if op_group op then
    o <- fromvalue W (TableGroup_class W) j ;;
    _ <- (if is_url url then ts <- group_of W dtype_of sc (jf_expand_row (F [])) lim env fs false url o ;; validate_schema_strict ts else Ok tt) ;;
    match nth 17 (o_vals o) (MJ JNull) with
    | MObjs ts =>
        g <- load_group W dtype_of true o ;;
        let g' := {| gr_tables := gr_tables g; gr_dialect := gr_dialect g; gr_base := gr_base g; gr_ctx := gr_ctx g; gr_fname := fname_of url; gr_doc := gr_doc g |} in
        ss <- mapM (fun xo => source_of_table (Some o) (Files.base_of env g' (t_ctx (fst xo))) (Files.dialect_of g' (fst xo)) (snd xo)) (combine (gr_tables g) ts) ;;
        Ok (op_nometa op, Some (o_common o), ss)
    | _ => Err OtherError (* unreachable *)
    end
  else
    o <- fromvalue W (Table_class W) j ;;
    x <- load_table dtype_of true None o ;;
    own <- at_str (o_at o) (lit "base") ;;
    let d := match t_dialect x with Some d => d | None => meta_dialect end in
    s <- source_of_table None (lone_base (V := V) env own (fname_of url) (t_ctx x)) (if op_no_header op then without_header d else d) o ;;
    Ok (op_nometa op, None, [s]).
(** to_json: metadata.py:1783-1798, as in Csv2json.group_to_json *)
Definition sources_json (nometa : bool) (common : option (list (pystr * json))) (ss : list jsource) : res (list (pystr * jout V) * list (list (pystr * jout V))) :=
  r <- match common with Some (p :: ps) => update_props true [] (p :: ps) | _ => Ok [] end ;;
  ts <- mapM (source_json nometa) (filter (fun s => negb (jt_suppress (jo_table s))) ss) ;;
  Ok (r, ts).
(** csvw2json: __main__.py:115-123.  What is printed *)
Definition csvw2json (url : pystr) : res pystr :=
  s <- json_source url ;;
  r <- sources_json (fst (fst s)) (snd (fst s)) (snd s) ;;
  j <- result_json shows r ;;
  Ok (JsonText.dumps JsonText.indented j).
End ToJson.
