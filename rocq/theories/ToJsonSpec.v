(** What csvw2json prints (C69).  Vocabulary: LocateSpec.v, LoadSpec.v (member, table_described, ...), CliSpec.v (metadata_used, base_for, ...), DsvSpec.v (the reader
    for a dialect, C04), LaxSpec.v (the rows read without strictness are those of iter_reader, C61), Csv2jsonSpec.v (table_object, C51), JsonTextSpec.v. *)
From Verif Require Import PyStr PyCsv Dsv DsvSpec Json Dec NatLang Column Schema Table Zip Locate LocateSpec Files Descr Load Jsonld Csv2json Csv2jsonSpec LoadSpec CliSpec.
From Verif Require MetaSpec JsonText JsonTextSpec.

(** ** The JSON value for what to_json returns.  [shows]: the JSON value for a value in a cell, if json.dumps can write it *)
Section Shown.
Context {V : Type} (shows : V -> option json).
Inductive item_shown : option V -> json -> Prop :=
| is_null : item_shown None JNull
| is_value v j : shows v = Some j -> item_shown (Some v) j.
Inductive tree_shown : tree (option V) -> json -> Prop :=
| ts_one v j : item_shown v j -> tree_shown (One v) j
| ts_many l js : Forall2 tree_shown l js -> tree_shown (Many l) (JList js).
Inductive oval_shown : @oval (option V) -> json -> Prop :=
| os_raw x j : tree_shown x j -> oval_shown (Raw x) j
| os_json j : oval_shown (Js j) j.
Inductive value_shown : pyval V -> json -> Prop :=
| vs_none : value_shown PNone JNull
| vs_one v j : shows v = Some j -> value_shown (POne v) j
| vs_list l js : Forall2 item_shown l js -> value_shown (PList l) (JList js).
Inductive titles_shown : titles V -> json -> Prop :=
| tis_one v j : value_shown v j -> titles_shown (TOne v) j
| tis_many l js : Forall2 value_shown l js -> titles_shown (TMany l) (JList js).
(** an object with these keys, in this order, and the values shown *)
Definition object_shown {A : Type} (R : A -> json -> Prop) (kvs : list (pystr * A)) (j : json) : Prop :=
  exists l, j = JObj l /\ Forall2 (fun kv kj => fst kj = fst kv /\ R (snd kv) (snd kj)) kvs l.
Record row_shown (r : jrow V) (j : json) : Prop := {
  rs_object : exists d ds, j = JObj d /\
    member d (lit "url") = Some (JStr (jr_url r)) /\ member d (lit "rownum") = Some (JInt (Z.of_nat (jr_num r))) /\
    match jr_titles r with
    | None => member d (lit "titles") = None
    | Some t => exists tj, member d (lit "titles") = Some tj /\ titles_shown t tj
    end /\
    member d (lit "describes") = Some (JList ds) /\ Forall2 (object_shown oval_shown) (jr_describes r) ds /\
    forall k, In k (map fst d) -> In k (map lit ["url"; "rownum"; "titles"; "describes"]%string);
}.
Inductive out_shown : jout V -> json -> Prop :=
| ous_json j : out_shown (OJson j) j
| ous_rows rs js : Forall2 row_shown rs js -> out_shown (ORows rs) (JList js).
(** the common properties of the group and "tables" *)
Definition result_shown (common : list (pystr * json)) (os : list (list (pystr * jout V))) (j : json) : Prop :=
  exists d js, j = JObj d /\ member d (lit "tables") = Some (JList js) /\ Forall2 (object_shown out_shown) os js /\
    forall k, k <> lit "tables" -> member d k = dget str_eqb common k.
End Shown.

Section Spec.
Context {B V : Type} (W : world B) (dtype_of : mobj B -> dtype V) (sc : scalars V) (F : pystr -> json_fns V).
Variables (lim : N) (w : web) (env : fenv) (fs : files) (stem : pystr -> pystr).

(** ** What an object of the metadata says *)
(** its own values; they are inherited as C51 says *)
Definition template_says (d : object) (k : pystr) (o : option pystr) : Prop :=
  match member d k with Some (JStr u) => o = Some u | _ => o = None end.
Record level_says (d : object) (x : desc V) : Prop := {
  ls_aboutUrl : template_says d (lit "aboutUrl") (de_aboutUrl x);
  ls_propertyUrl : template_says d (lit "propertyUrl") (de_propertyUrl x);
  ls_valueUrl : template_says d (lit "valueUrl") (de_valueUrl x);
  ls_separator : match member d (lit "separator") with Some (JStr s) => de_separator x = Some s | _ => de_separator x = None end;
  ls_null : (exists j, member d (lit "null") = Some j /\ null_strings j (de_null x)) \/
            (de_null x = [[]] /\ forall j ss, member d (lit "null") = Some j -> null_strings j ss -> ss = [[]]);
  ls_datatype : match de_datatype x with
                | Some (Some t) => exists j o, member d (lit "datatype") = Some j /\ datatype_fromvalue W j = Ok o /\ t = dtype_of o
                | Some None => exists j, member d (lit "datatype") = Some j /\ j <> JNull /\ truthy j = false
                | None => member d (lit "datatype") = None \/ member d (lit "datatype") = Some JNull
                end;
}.
(** the members with a colon in their names, without those that start with '@'; the values as C48 says *)
Definition common_property (d : object) (k : pystr) (v : json) : Prop := member d k = Some v /\ In 58 k /\ forall s, k <> lit "@" ++ s.
Definition common_says (d : object) (props : list (pystr * json)) : Prop :=
  NoDup (map fst props) /\ forall k v, In (k, v) props <-> exists v0, common_property d k v0 /\ v = MetaSpec.clean (w_tag_ok W) v0.
Definition row_titles_say (s : object) (names : list pystr) : Prop :=
  match member s (lit "rowTitles") with
  | None => names = []
  | Some (JList l) => l = map JStr names
  | Some j => exists n, j = JStr n /\ names = [n]
  end.
(** What is converted: the object t of a table in the objects outer.  b: where its url is relative to, x: the table as it is read (C62) *)
Record table_says (outer : list object) (t : object) (b : base) (x : ftable V) (j : jtable V) : Prop := {
  js_read : table_described W dtype_of true outer t x;
  js_url : jt_url j = match resolve env b (t_url x) with Web u => u | Local p => p end;
  js_id : (member t (lit "@id") = None -> jt_id j = None) /\ forall s, member t (lit "@id") = Some (JStr s) -> jt_id j = Some (JStr s);
  js_notes : jt_notes j = match member t (lit "notes") with Some n => n | None => JList [] end;
  js_common : common_says t (jt_common j);
  js_table : level_says t (jt_table j);
  js_outer : Forall2 level_says outer (jt_outer j);
  js_lang : jt_lang j = t_lang x;
  js_suppress : jt_suppress j = true <-> exists v, member t (lit "suppressOutput") = Some v /\ truthy v = true;
  js_schema : exists s ds, schema_object W (member t (lit "tableSchema")) s /\ columns_of s ds /\ level_says s (jt_schema j) /\ row_titles_say s (jt_row_titles j) /\
    map jc_col (jt_cols j) = t_cols x /\
    Forall2 (fun d c => level_says d (jdesc c) /\
      ((forall l, member d (lit "suppressOutput") <> Some (JList l)) -> jc_suppress c = true <-> member d (lit "suppressOutput") = Some (JBool true))) ds (jt_cols j);
}.

(** ** How a table is read *)
(** the rows of the csv file with this url: of the local file, the zip archive instead of it, or the web *)
Inductive raw_at (b : base) (dl : dialect) (url : pystr) (raw : list (list pystr)) : Prop :=
| rw_file p text : resolve env b url = Local p -> fs p = Some (Plain text) -> reader_rows lim (Some dl) kw0 text = Ok (raw, None) -> raw_at b dl url raw
| rw_zip p before name text after : resolve env b url = Local p -> fs p = None -> fs (p ++ lit ".zip") = Some (Archive (before ++ (name, text) :: after)) ->
    ends_with name (basename p) -> (forall n t, In (n, t) before -> ~ ends_with n (basename p)) ->
    handle_rows lim dl text = Ok (raw, None) -> raw_at b dl url raw
| rw_web u text : resolve env b url = Web u -> fe_get env u = Ok text -> handle_rows lim dl text = Ok (raw, None) -> raw_at b dl url raw.
(** the object for the table is that of C51 for the rows that the reader for the dialect keeps (C04), read without strictness (C61), and for the comments *)
Definition table_becomes (nometa : bool) (b : base) (dl : dialect) (x : ftable V) (j : jtable V) (o : list (pystr * jout V)) : Prop :=
  exists raw kept cs, raw_at b dl (t_url x) raw /\ Selected (fun lr => ~ row_is_dropped dl lr) (number_rows 0 raw) kept /\ comments_given dl raw cs /\
    (NoDup (map tc_header (t_cols x)) ->
     table_object sc (F (jt_url j)) nometa j
       (iter_reader sc (jf_expand_row (F (jt_url j))) dl (t_lang x) false false (map jc_col (jcols j)) (Ok (map (fun lr => (S (fst lr), presented dl (snd lr))) kept, None))) cs o).
Record conv := { cv_base : base; cv_dialect : dialect; cv_table : ftable V; cv_json : jtable V }.
Definition all_become (nometa : bool) (xs : list conv) (os : list (list (pystr * jout V))) : Prop :=
  Forall2 (fun x o => table_becomes nometa (cv_base x) (cv_dialect x) (cv_table x) (cv_json x) o) (filter (fun x => negb (jt_suppress (cv_json x))) xs) os.

(** ** Which tables *)
Definition group_converted (url : pystr) (md : object) (xs : list conv) : Prop :=
  exists ts dl b, tables_of md ts /\ dialect_described W md dl /\ own_base_is md b /\
    Forall2 (fun t x => table_says [md] t (cv_base x) (cv_table x) (cv_json x) /\ base_for env url b (t_ctx (cv_table x)) (cv_base x) /\
      cv_dialect x = match t_dialect (cv_table x), dl with Some d, _ => d | None, Some d => d | None, None => meta_dialect end) ts xs.
Definition lone_converted (url : pystr) (no_header : bool) (md : object) (x : conv) : Prop :=
  exists b, own_base_is md b /\ table_says [] md (cv_base x) (cv_table x) (cv_json x) /\ base_for env url b (t_ctx (cv_table x)) (cv_base x) /\
    exists d, d = match t_dialect (cv_table x) with Some d => d | None => meta_dialect end /\
    (no_header = false -> cv_dialect x = d) /\
    (no_header = true -> cv_dialect x =
      {| d_encoding := d_encoding d; d_lineTerminators := d_lineTerminators d; d_quoteChar := d_quoteChar d; d_doubleQuote := d_doubleQuote d;
         d_skipRows := d_skipRows d; d_commentPrefix := d_commentPrefix d; d_header := false; d_headerRowCount := d_headerRowCount d; d_delimiter := d_delimiter d;
         d_skipColumns := d_skipColumns d; d_skipBlankRows := d_skipBlankRows d; d_skipInitialSpace := d_skipInitialSpace d; d_trim := d_trim d |}).
(** md: the metadata found, md': with links resolved *)
Definition tables_converted (url : pystr) (md md' : object) (xs : list conv) : Prop :=
  (member md (lit "tables") <> None -> group_converted url md' xs) /\
  (member md (lit "tables") = None -> exists x nh, xs = [x] /\ (nh = true <-> no_header_announced w url) /\ lone_converted url nh md' x).
(** common properties of the group *)
Definition group_common (md md' : object) (common : list (pystr * json)) : Prop :=
  (member md (lit "tables") = None -> common = []) /\
  (member md (lit "tables") <> None ->
    (forall k v, common_property md' k v -> exists j, to_json true (MetaSpec.clean (w_tag_ok W) v) = Ok j /\
      dget str_eqb common (if str_eqb k (lit "rdf:type") then lit "@type" else k) = Some j) /\
    (forall k, In k (map fst common) -> k = lit "@type" \/ exists v, common_property md' k v)).
(** the metadata has no other properties than these two: it is not that of a file *)
Definition only_named (md : object) : Prop := forall k, In k (map fst md) <-> k = lit "@context" \/ k = lit "url".
Record prints (shows : V -> option json) (url text : pystr) : Prop := {
  pr_all : exists md md' nometa xs os common j,
    metadata_used w url md /\ metadata_as_used env stem url md md' /\ (nometa = true <-> only_named md) /\
    tables_converted url md md' xs /\ all_become nometa xs os /\ group_common md md' common /\
    result_shown shows common os j /\ text = JsonText.dumps JsonText.indented j /\
    forall fr, JsonTextSpec.good fr j -> JsonText.loads fr text = Some j;
}.
End Spec.
