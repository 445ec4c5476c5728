(** csvwvalidate URL: __main__.py:64-88; CSVW.__init__, is_valid and tablegroup: metadata.py:1644-1716; Table.from_url and TableGroup.from_url:
    metadata.py:1093-1104; TableLike.base: metadata.py:1119-1137; validate_schema(strict=True): metadata.py:1550-1568.

    This puts together the models of locating metadata (Locate.v), of building descriptions (Descr.v, Load.v), of the warnings thereby (Warn.v),
    of finding and reading files (Files.v, Zip.v, Table.v) and of the checks of keys (Group.v). *)
From Verif Require Import PyStr Json Dsv Dialects NatLang Column Schema Table Zip Locate Files Descr Load Warn Group.

(** the warnings recorded by CSVW( ..., validate=True) *)
Inductive cwarn :=
| CLinked            (* metadata.py:1745-1746 *)
| CLocation          (* :1760 *)
| CLoad (x : lwarn). (* see Warn.v *)

Section Cli.
Context {B V : Type} (veq : V -> V -> bool) (W : world B) (dtype_of : mobj B -> dtype V) (sc : scalars V) (expand : pystr -> dict V -> res pystr).
Variables (lim : N) (w : web) (env : fenv) (fs : files).
(** urlunparse((scheme, netloc, path, '', '', '')) of urlparse(url): metadata.py:1099-1100 *)
Variable stem : pystr -> pystr.

(** ** Locating metadata: the warnings of Locate.locate_metadata, if it does not raise an exception *)
(** metadata.py:1740-1746 *)
Definition linked_warns (url : pystr) (desc : option (list (pystr * pystr))) : list cwarn :=
  match linked w url desc, desc with
  | Ok None, Some (p :: ps) => match dget str_eqb (p :: ps) (lit "type") with
                               | Some ty => if str_mem ty json_types then [CLinked] else []
                               | None => []
                               end
  | _, _ => []
  end.
(** metadata.py:1754-1762 *)
Definition location_warns (url line : pystr) : list cwarn :=
  match (u <- wb_expand w line url ;; wb_get w (wb_join w url u)) with
  | Ok r => if (fst r =? 200)%Z then match wb_json w (snd r) with Some _ => [CLocation] | None => [] end else []
  | Err _ => []
  end.
Fixpoint locations_warns (url : pystr) (lines : list pystr) : list cwarn :=
  match lines with
  | [] => []
  | line :: rest => match at_location w url line with Ok None => location_warns url line ++ locations_warns url rest | _ => [] end
  end.
Definition locate_warns (url : pystr) : list cwarn :=
  if is_url url then
    match wb_head w url with
    | Ok h => match linked w url (snd h) with
              | Ok None => linked_warns url (snd h) ++ match locations w url with Ok ls => locations_warns url ls | Err _ => [] end
              | _ => []
              end
    | Err _ => []
    end
  else [].
(** metadata.py:1652-1657, without md_url *)
Definition open_warns (url : pystr) : list cwarn := match get_json w url with Ok None => locate_warns url | _ => [] end.

(** ** from_url: metadata.py:1093-1104 *)
(** Link(s).resolve(base), base being the value of '@base': urljoin.  Simplified: another value than a string is not accepted for an empty link either *)
Definition link_from (b : json) (s : pystr) : res pystr :=
  match b with JStr b => Ok (fe_join env b s) | _ => if truthy b then Err TypeError else Ok s end.
Definition resolve_schema (b t : json) : res json :=
  match t with
  | JObj kvs => match dget str_eqb kvs (lit "tableSchema") with
                | Some (JStr s) => u <- link_from b s ;; Ok (JObj (dset str_eqb kvs (lit "tableSchema") (JStr u)))
                | _ => Ok t
                end
  | _ => Ok t
  end.
(** data.setdefault('@base', ...), then data['@base'] *)
Definition with_base (url : pystr) (kvs : list (pystr * json)) : list (pystr * json) :=
  match dget str_eqb kvs (lit "@base") with Some _ => kvs | None => kvs ++ [(lit "@base", JStr (stem url))] end.
Definition base_value (url : pystr) (kvs : list (pystr * json)) : json := getdef (dget str_eqb kvs (lit "@base")) (JStr (stem url)).
(** only called if 'tables' is missing, or a list: metadata.py:1663-1665 *)
Definition from_url_data (url : pystr) (kvs : list (pystr * json)) : res json :=
  let b := base_value url kvs in
  match dget str_eqb kvs (lit "tables") with
  | Some (JList l) => l' <- mapM (resolve_schema b) l ;; Ok (JObj (dset str_eqb (with_base url kvs) (lit "tables") (JList l')))
  | Some _ => Err TypeError
  | None => resolve_schema b (JObj (with_base url kvs))
  end.

(** ** The tables *)
(** a table with its keys *)
Record ktable := { k_table : ftable V; k_pk : option (list pystr); k_fks : list fkey }.
Definition load_keyed (csvw : bool) (group : option (mobj B)) (o : mobj B) : res ktable :=
  t <- load_table dtype_of csvw group o ;;
  s <- table_schema dtype_of csvw o ;;
  Ok {| k_table := t; k_pk := s_primaryKey s; k_fks := s_foreignKeys s |}.
(** Table.iterdicts with this base: metadata.py:1326-1349, see Files.table_iter *)
Definition iter_at (b : base) (dl : dialect) (strict log : bool) (t : ftable V) : @iterout V :=
  match resolve env b (t_url t) with
  | Web u => match fe_get env u with
             | Ok c => iter_url sc expand lim dl (t_lang t) strict log (t_cols t) c
             | Err e => io_err [] e
             end
  | Local p => iter_file sc expand lim dl (t_lang t) strict log (t_cols t) fs p
  end.
(** [b]: the base while is_valid reads the table; [b']: while check_referential_integrity does.  These are the readings
    without and with a log in Group.is_valid *)
Definition to_gtable (b b' : base) (dl : dialect) (k : ktable) : gtable :=
  {| g_name := t_url (k_table k); g_cols := t_cols (k_table k); g_pk := k_pk k; g_fkeys := k_fks k;
     g_iter := fun log => iter_at (if log then b else b') dl true log (k_table k);
     g_lax := iter_at b dl false false (k_table k) |}.
(** metadata.py:1119-1137 for a table without group: like Files.base_of *)
Definition lone_base (own : option pystr) (fname : option pystr) (ctx : option pystr) : base :=
  Files.base_of env {| gr_tables := @nil (ftable V); gr_dialect := None; gr_base := own; gr_ctx := ctx; gr_fname := fname; gr_doc := Ok JNull |} ctx.
(** metadata.py:1713-1716: the table becomes a table of a new group whose '@base' is [b], and gets another base by that *)
Definition regrouped (b : base) (ctx : option pystr) : base :=
  match ctx with
  | Some (c :: s) =>
      match b with
      | BPath p => if is_url (c :: s) then BUrl (c :: s) else BPath (joinpath (if fe_isdir env p then p else parent p) (c :: s))
      | BUrl u => BUrl (fe_join env u (c :: s))
      | BNone => BUrl (c :: s)
      end
  | _ => b
  end.
(** metadata.py:1672-1676 *)
Definition without_header (d : dialect) : dialect :=
  {| d_encoding := d_encoding d; d_lineTerminators := d_lineTerminators d; d_quoteChar := d_quoteChar d;
     d_doubleQuote := d_doubleQuote d; d_skipRows := d_skipRows d; d_commentPrefix := d_commentPrefix d; d_header := false;
     d_headerRowCount := d_headerRowCount d; d_delimiter := d_delimiter d; d_skipColumns := d_skipColumns d; d_skipBlankRows := d_skipBlankRows d;
     d_skipInitialSpace := d_skipInitialSpace d; d_trim := d_trim d |}.

(** ** validate_schema(strict=True): metadata.py:1550-1568, 977-979: columns are looked up by their name only *)
Definition named_column (cols : list (tcol V)) (n : pystr) : res (tcol V) :=
  match dget str_eqb (dset_all str_eqb [] (map (fun c => (tc_header c, c)) cols)) n with
  | Some c => match c_name (tc_col c) with Some (_ :: _) => Ok c | _ => Err AssertionError end
  | None => Err AssertionError
  end.
Definition check_pair_strict (st ct : @gtable V) (p : pystr * pystr) : res unit :=
  s <- named_column (g_cols st) (fst p) ;;
  t <- named_column (g_cols ct) (snd p) ;;
  match own_base s, own_base t with
  | Some a, Some b => if str_eqb a b then Ok tt else Err ValueError
  | _, _ => Ok tt
  end.
Definition check_fk_strict (x : fk4) : res unit :=
  if Nat.eqb (length (f_key x)) (length (f_ref x))
  then _ <- mapM (check_pair_strict (f_target x) (f_child x)) (combine (f_key x) (f_ref x)) ;; Ok tt
  else Err ValueError.
Definition validate_schema_strict (ts : list (@gtable V)) : res unit :=
  match (fks <- foreign_keys ts ;; _ <- mapM check_fk_strict fks ;; Ok tt) with
  | Err KeyError | Err AssertionError => Err ValueError
  | r => r
  end.

(** ** CSVW(url, validate=True): metadata.py:1644-1690.  The tables and the warnings *)
Definition fname_of (url : pystr) : option pystr := if is_url url then None else Some (norm url).
Definition group_of (csvw : bool) (url : pystr) (o : mobj B) : res (list (@gtable V)) :=
  match nth 17 (o_vals o) (MJ JNull) with
  | MObjs ts =>
      ks <- mapM (load_keyed csvw (Some o)) ts ;;
      g <- load_group W dtype_of csvw o ;;
      let g' := {| gr_tables := gr_tables g; gr_dialect := gr_dialect g; gr_base := gr_base g; gr_ctx := gr_ctx g; gr_fname := fname_of url; gr_doc := gr_doc g |} in
      Ok (map (fun k => let b := Files.base_of env g' (t_ctx (k_table k)) in to_gtable b b (Files.dialect_of g' (k_table k)) k) ks)
  | _ => Err OtherError (* unreachable *)
  end.
Definition table_of (no_header : bool) (url : pystr) (o : mobj B) : res (@gtable V) :=
  k <- load_keyed true None o ;;
  own <- at_str (o_at o) (lit "base") ;;
  let d := match t_dialect (k_table k) with Some d => d | None => meta_dialect end in
  let b := lone_base own (fname_of url) (t_ctx (k_table k)) in
  Ok (to_gtable b (regrouped b (t_ctx (k_table k))) (if no_header then without_header d else d) k).
Definition csvw_new (url : pystr) : res (list cwarn * list (@gtable V)) :=
  op <- csvw_open w url None ;;
  j <- (if is_url url then from_url_data url (op_md op) else Ok (JObj (op_md op))) ;;
  if op_group op then
    o <- fromvalue W (TableGroup_class W) j ;;
    _ <- (if is_url url then ts <- group_of false url o ;; validate_schema_strict ts else Ok tt) ;;
    ts <- group_of true url o ;;
    Ok (open_warns url ++ map CLoad (group_warns W j), ts)
  else
    o <- fromvalue W (Table_class W) j ;;
    t <- table_of (op_no_header op) url o ;;
    Ok (open_warns url ++ map CLoad (table_warns W j), [t]).
(** metadata.py:1692-1711 *)
Definition csvw_is_valid (c : list cwarn * list (@gtable V)) : res bool :=
  match fst c with _ :: _ => Ok false | [] => is_valid veq [] (snd c) end.

(** ** csvwvalidate: __main__.py:64-88.  What is printed, and the exit code; an exception other than ValueError is not handled *)
Inductive line := LineOK | LineFail | LineWarnings | LineError.
Definition csvwvalidate (url : pystr) (verbose : bool) : res (list line * nat) :=
  match (c <- csvw_new url ;; csvw_is_valid c) with
  | Ok true => Ok ([LineOK], 0%nat)
  | Ok false => Ok (LineFail :: (if verbose then [LineWarnings] else []), 1%nat)
  | Err ValueError => Ok (LineFail :: (if verbose then [LineError] else []), 2%nat)
  | Err e => Err e
  end.
End Cli.
