(** What csvwvalidate checks (C64).  Vocabulary: LocateSpec.v (located, link_gives, ...), LoadSpec.v (table_described, ...), WarnSpec.v
    (group_in_order, ...), QuietSpec.v (content_valid), GroupSpec.v (integrity_holds, ...). *)
From Verif Require Import PyStr Dsv DsvSpec Json Dialects NatLang Column Schema Table TableSpec Zip Locate LocateSpec Files Descr Load LoadSpec Warn WarnSpec
  QuietSpec Group GroupSpec.

(** ** Locating metadata *)
Section Place.
Variable w : web.
(** the linked document is JSON of one of the three media types, but does not refer to the file *)
Definition link_ignored (url : pystr) (desc : option (list (pystr * pystr))) : Prop :=
  exists d ty u t md, desc = Some d /\ dget str_eqb d (lit "type") = Some ty /\
    In ty [lit "application/csvm+json"; lit "application/ld+json"; lit "application/json"] /\
    dget str_eqb d (lit "url") = Some u /\ document w (wb_join w url u) t /\ wb_json w t = Some md /\ ~ refers md url.
(** so is a document at one of the locations *)
Definition location_ignored (url line : pystr) : Prop :=
  exists u t md, wb_expand w line url = Ok u /\ wb_get w (wb_join w url u) = Ok (200%Z, t) /\ wb_json w t = Some md /\ ~ refers md url.
(** The metadata md of the file or metadata file at this place (C53) *)
Inductive metadata_used (url : pystr) (md : object) : Prop :=
| mu_itself t : document w url t -> wb_json w t = Some (JObj md) -> metadata_used url md
| mu_located t : remote url -> document w url t -> wb_json w t = None -> located w url (JObj md) -> metadata_used url md
| mu_beside t t' : ~ remote url -> document w url t -> wb_json w t = None -> wb_file w (url ++ lit "-metadata.json") = Some t' -> wb_json w t' = Some (JObj md) -> metadata_used url md
| mu_none t : ~ remote url -> document w url t -> wb_json w t = None -> wb_file w (url ++ lit "-metadata.json") = None ->
    md = [(lit "@context", JStr (lit "http://www.w3.org/ns/csvw")); (lit "url", JStr (wb_name w url)); (lit "@base", JStr (wb_path w url))] -> metadata_used url md.
(** the web server says that the file has no header *)
Definition no_header_announced (url : pystr) : Prop :=
  remote url /\ (exists t, document w url t /\ wb_json w t = None) /\ exists ct desc, wb_head w url = Ok (ct, desc) /\ announces_no_header ct.
(** nothing was ignored: the linked document is used; or there is none to ignore, and none to ignore at the locations before the first that is used *)
Inductive nothing_ignored (url : pystr) : Prop :=
| ni_metadata t md : document w url t -> wb_json w t = Some md -> nothing_ignored url
| ni_local : ~ remote url -> nothing_ignored url
| ni_link ct desc md : wb_head w url = Ok (ct, desc) -> link_gives w url desc md -> nothing_ignored url
| ni_place ct desc ls a rest : wb_head w url = Ok (ct, desc) -> ~ link_ignored url desc -> locations_of w url ls -> ls = a ++ rest ->
    Forall (fun l => ~ location_ignored url l) a -> (rest = [] \/ exists l rest' md, rest = l :: rest' /\ location_gives w url l md) -> nothing_ignored url.
End Place.

(** ** Metadata from the web *)
(** relative links are relative to "@base", which is the URL of the file without its query and fragment unless given *)
Section Web.
Variables (stem : pystr -> pystr) (join : pystr -> pystr -> pystr).
Definition base_is (url : pystr) (md : object) (b : pystr) : Prop := member md (lit "@base") = Some (JStr b) \/ member md (lit "@base") = None /\ b = stem url.
(** a table with its link to a schema resolved *)
Inductive schema_resolved (b : pystr) : json -> json -> Prop :=
| sr_link t s t' : member t (lit "tableSchema") = Some (JStr s) -> member t' (lit "tableSchema") = Some (JStr (join b s)) ->
    (forall k, k <> lit "tableSchema" -> member t' k = member t k) -> schema_resolved b (JObj t) (JObj t')
| sr_same j : (forall t s, j = JObj t -> member t (lit "tableSchema") <> Some (JStr s)) -> schema_resolved b j j.
(** md' : the metadata md as used for the URL *)
Definition web_metadata (url : pystr) (md md' : object) : Prop :=
  exists b, base_is url md b /\ member md' (lit "@base") = Some (JStr b) /\
    match member md (lit "tables") with
    | Some (JList l) => exists l', member md' (lit "tables") = Some (JList l') /\ Forall2 (schema_resolved b) l l' /\
        forall k, k <> lit "@base" -> k <> lit "tables" -> member md' k = member md k
    | _ => exists m, (forall k, k <> lit "@base" -> member m k = member md k) /\ member m (lit "@base") = Some (JStr b) /\ schema_resolved b (JObj m) (JObj md')
    end.
End Web.

(** ** Keys *)
(** one column or a list of columns *)
Inductive columns_listed : option json -> list pystr -> Prop :=
| cl_one s : columns_listed (Some (JStr s)) [s]
| cl_list l : columns_listed (Some (JList (map JStr l))) l.
(** (a primary key with a column without name is ignored, with a warning) *)
Definition primary_key_says (s : object) (ds : list object) (pk : option (list pystr)) : Prop :=
  key_columns_named s ds ->
  match pk with
  | Some ks => columns_listed (member s (lit "primaryKey")) ks
  | None => member s (lit "primaryKey") = None \/ member s (lit "primaryKey") = Some JNull
  end.
Definition link_says (r : object) (k : pystr) (o : option pystr) : Prop :=
  match o with Some u => member r k = Some (JStr u) | None => member r k = None \/ member r k = Some JNull end.
Record foreign_key_says (d : object) (k : fkey) : Prop := {
  fs_columns : columns_listed (member d (lit "columnReference")) (fk_cols k);
  fs_reference : exists r, member d (lit "reference") = Some (JObj r) /\ columns_listed (member r (lit "columnReference")) (fk_refcols k) /\
    link_says r (lit "resource") (fk_resource k) /\ link_says r (lit "schemaReference") (fk_schemaReference k);
}.
Definition foreign_keys_say (s : object) (ks : list fkey) : Prop :=
  exists fs, match member s (lit "foreignKeys") with Some (JList l) => objects_in l fs | _ => fs = [] end /\ Forall2 foreign_key_says fs ks.

(** ** Tables *)
Section Tables.
Context {B V : Type} (W : world B) (dtype_of : mobj B -> dtype V) (sc : scalars V) (expand : pystr -> dict V -> res pystr).
Variables (lim : N) (env : fenv) (fs : files).
Definition keys_described (t : object) (pk : option (list pystr)) (fks : list fkey) : Prop :=
  exists s ds, schema_object W (member t (lit "tableSchema")) s /\ columns_of s ds /\ primary_key_says s ds pk /\ foreign_keys_say s fks.
Definition ends_with (name e : pystr) : Prop := exists a, name = a ++ e.
(** the rows of the file with this url, as the reader for the dialect yields them (C04): of the local file, the zip archive instead of it, or the web *)
Inductive rows_at (b : base) (dl : dialect) (url : pystr) (rows : list (nat * list pystr)) : Prop :=
| ra_file p text : resolve env b url = Local p -> fs p = Some (Plain text) -> reader_with_line_number lim (Some dl) kw0 text = Ok (rows, None) -> rows_at b dl url rows
| ra_zip p before name text after : resolve env b url = Local p -> fs p = None -> fs (p ++ lit ".zip") = Some (Archive (before ++ (name, text) :: after)) ->
    ends_with name (basename p) -> (forall n t, In (n, t) before -> ~ ends_with n (basename p)) ->
    handle_with_line_number lim dl text = Ok (rows, None) -> rows_at b dl url rows
| ra_web u text : resolve env b url = Web u -> fe_get env u = Ok text -> handle_with_line_number lim dl text = Ok (rows, None) -> rows_at b dl url rows.

(** A table as it is validated: its description, its keys, the dialect, the base for its url, and the base for the url in the check of foreign keys *)
Record checked := { ck_table : ftable V; ck_pk : option (list pystr); ck_fks : list fkey; ck_dialect : dialect; ck_base : base; ck_base2 : base }.
(** the rows of the file, or what happens otherwise *)
Definition file_valid (x : checked) : Prop :=
  exists rows, rows_at (ck_base x) (ck_dialect x) (t_url (ck_table x)) rows /\ content_valid sc (t_lang (ck_table x)) (ck_dialect x) (t_cols (ck_table x)) rows.
(** g: the table as seen by the checks of keys: what is read, with and without a log, are the rows of the file as dicts (C29) *)
Record read_as (x : checked) (g : @gtable V) : Prop := {
  ra_name : g_name g = t_url (ck_table x);
  ra_cols : g_cols g = t_cols (ck_table x);
  ra_pk : g_pk g = ck_pk x;
  ra_fks : g_fkeys g = ck_fks x;
  ra_log : forall rows, rows_at (ck_base x) (ck_dialect x) (t_url (ck_table x)) rows ->
    g_iter g true = iter_reader sc expand (ck_dialect x) (t_lang (ck_table x)) true true (t_cols (ck_table x)) (Ok (rows, None));
  ra_nolog : forall rows, rows_at (ck_base2 x) (ck_dialect x) (t_url (ck_table x)) rows ->
    g_iter g false = iter_reader sc expand (ck_dialect x) (t_lang (ck_table x)) true false (t_cols (ck_table x)) (Ok (rows, None));
  ra_log_ends : io_end (g_iter g true) = None -> exists rows, rows_at (ck_base x) (ck_dialect x) (t_url (ck_table x)) rows;
  ra_nolog_ends : io_end (g_iter g false) = None -> exists rows, rows_at (ck_base2 x) (ck_dialect x) (t_url (ck_table x)) rows;
}.
Definition keys_valid (veq : V -> V -> bool) (gs : list (@gtable V)) : Prop :=
  (forall g, In g gs -> primary_key_unique veq g) /\ integrity_holds veq true false gs /\ key_checks_quiet gs.

(** all of it *)
Record all_valid (veq : V -> V -> bool) (xs : list checked) (gs : list (@gtable V)) : Prop := {
  av_files : forall x, In x xs -> file_valid x;
  av_keys : keys_valid veq gs;
}.

(** ** Which tables, and where they are *)
(** outer: the object of the group *)
Record table_checked (outer : list object) (t : object) (x : checked) : Prop := {
  tc_described : table_described W dtype_of true outer t (ck_table x);
  tc_keys : keys_described t (ck_pk x) (ck_fks x);
}.
(** the base: "@base" of the metadata (with "@base" in the context of the table resolved), else the directory of the metadata *)
Definition base_for (url : pystr) (at_base ctx : option pystr) (b : base) : Prop :=
  match at_base with
  | Some u => b = BUrl (match ctx with Some c => if str_eqb c [] then u else fe_join env u c | None => u end)
  | None => (remote url -> b = BNone) /\ (~ remote url -> b = BPath (parent (norm url)))
  end.
Definition own_base_is (md : object) (o : option pystr) : Prop := member md (lit "@base") = option_map JStr o.
(** tables of a group *)
Definition group_checked (url : pystr) (md : object) (xs : list checked) : Prop :=
  exists ts dl b, tables_of md ts /\ dialect_described W md dl /\ own_base_is md b /\
    Forall2 (fun t x => table_checked [md] t x /\ base_for url b (t_ctx (ck_table x)) (ck_base x) /\ ck_base2 x = ck_base x /\
      ck_dialect x = match t_dialect (ck_table x), dl with Some d, _ => d | None, Some d => d | None, None => meta_dialect end) ts xs.
(** "@base" in the context, resolved once more *)
Definition base_again (ctx : option pystr) (b b' : base) : Prop :=
  match ctx with
  | None => b' = b
  | Some c => if str_eqb c [] then b' = b else
      match b with
      | BUrl u => b' = BUrl (fe_join env u c)
      | BNone => b' = BUrl c
      | BPath p => (remote c -> b' = BUrl c) /\ (~ remote c -> b' = BPath (joinpath (if fe_isdir env p then p else parent p) c))
      end
  end.
(** a single table; no_header: header=absent was given with the content type.  In the check of foreign keys "@base" in the context is resolved once more *)
Definition lone_checked (url : pystr) (no_header : bool) (md : object) (x : checked) : Prop :=
  exists b, own_base_is md b /\ table_checked [] md x /\ base_for url b (t_ctx (ck_table x)) (ck_base x) /\
    base_again (t_ctx (ck_table x)) (ck_base x) (ck_base2 x) /\
    exists d, d = match t_dialect (ck_table x) with Some d => d | None => meta_dialect end /\
    (no_header = false -> ck_dialect x = d) /\
    (no_header = true -> ck_dialect x =
      {| d_encoding := d_encoding d; d_lineTerminators := d_lineTerminators d; d_quoteChar := d_quoteChar d; d_doubleQuote := d_doubleQuote d;
         d_skipRows := d_skipRows d; d_commentPrefix := d_commentPrefix d; d_header := false; d_headerRowCount := d_headerRowCount d; d_delimiter := d_delimiter d;
         d_skipColumns := d_skipColumns d; d_skipBlankRows := d_skipBlankRows d; d_skipInitialSpace := d_skipInitialSpace d; d_trim := d_trim d |}).
(** ** The whole *)
Variables (w : web) (stem : pystr -> pystr).
(** md: the metadata found, md': with links resolved *)
Definition metadata_as_used (url : pystr) (md md' : object) : Prop := (remote url -> web_metadata stem (fe_join env) url md md') /\ (~ remote url -> md' = md).
Definition tables_checked (url : pystr) (md md' : object) (xs : list checked) : Prop :=
  (member md (lit "tables") <> None -> group_checked url md' xs) /\
  (member md (lit "tables") = None -> exists x nh, xs = [x] /\ (nh = true <-> no_header_announced w url) /\ lone_checked url nh md' x).
Definition metadata_in_order (md md' : object) : Prop :=
  (member md (lit "tables") <> None -> group_in_order W md') /\ (member md (lit "tables") = None -> table_in_order W md').
End Tables.
