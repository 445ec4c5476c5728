(** Specifications for converting a table group to a database (C65). *)
From Coq Require Import Permutation.
From Verif Require Import PyStr Dsv Datatype Column Schema Table Files Group Sql Db DbSql DbSqlSpec Sqlite DbWrite DbWriteSpec Cli.

Notation ktable := (@Cli.ktable value).
Notation col := (tcol value).
Definition url_of (k : ktable) : pystr := t_url (k_table k).
Definition columns (k : ktable) : list col := t_cols (k_table k).
(** the columns of the primary key *)
Definition key_columns (k : ktable) : list pystr := match k_pk k with Some l => l | None => [] end.

(** Column [h] of table k, with a separator of its own, is a foreign key to column [rc] of table [res] *)
Definition list_key (k : ktable) (h res rc : pystr) : Prop :=
  exists fk c, In fk (k_fks k) /\ fk_schemaReference fk = None /\ fk_cols fk = [h] /\ fk_resource fk = Some res /\ fk_refcols fk = [rc] /\
    In c (columns k) /\ tc_header c = h /\ exists x s, de_separator (c_desc (tc_col c)) = Some (x :: s).
Definition is_list_key (k : ktable) (h : pystr) : Prop := exists res rc, list_key k h res rc.

(** the name of the datatype of a column; string if there is none *)
Definition type_of (c : col) : pystr := match st_datatype (tc_st c) with Some t => match dt_base t with [] => lit "string" | b => b end | None => lit "string" end.

(** ** Names *)
(** The tables of the database: one for each table, named by its url, and one for a list-valued foreign key, for the two keys *)
Inductive makes (ks : list ktable) : pystr -> option (pystr * pystr * pystr * pystr) -> Prop :=
| mk_table k : In k ks -> makes ks (url_of k) None
| mk_association k p h res rc : In k ks -> list_key k h res rc -> k_pk k = Some [p] ->
    makes ks (url_of k ++ lit "_" ++ res) (Some (url_of k, p, res, rc)).
(** neither empty nor with a backtick or null character *)
Definition usable (n : pystr) : Prop := n <> [] /\ clean n.
Record names_fit (ks : list ktable) : Prop := {
  nf_tables : NoDup (map url_of ks);
  (* no two tables of the database have the same name; letter case does not count *)
  nf_makes : forall n x n' x', makes ks n x -> makes ks n' x' -> ascii_lower n = ascii_lower n' -> n = n' /\ x = x';
  nf_headers : forall k, In k ks -> NoDup (map tc_header (columns k)) /\ columns k <> [];
  nf_urls : forall k, In k ks -> usable (url_of k);
  nf_columns : forall k c, In k ks -> In c (columns k) -> usable (tc_header c);
  (* a primary key consists of columns that are not list-valued foreign keys *)
  nf_keys : forall k p, In k ks -> In p (key_columns k) -> In p (map tc_header (columns k)) /\ ~ is_list_key k p;
  nf_fkeys : forall k fk res, In k ks -> In fk (k_fks k) -> fk_schemaReference fk = None -> fk_resource fk = Some res ->
    usable res /\ fk_cols fk <> [] /\ fk_refcols fk <> [] /\ Forall usable (fk_cols fk) /\ Forall usable (fk_refcols fk);
  (* list-valued foreign keys: one for a column, without ' in its name, in a table whose primary key is a column of strings *)
  nf_lists : forall k h res rc, In k ks -> list_key k h res rc ->
    (forall res' rc', list_key k h res' rc' -> res' = res /\ rc' = rc) /\ ~ In QT h /\
    exists c, In c (columns k) /\ k_pk k = Some [tc_header c] /\ st_separator (tc_st c) = None /\ type_of c = lit "string";
  (* virtual columns contain strings *)
  nf_virtual : forall k c, In k ks -> In c (columns k) -> tc_virtual c = true ->
    st_separator (tc_st c) = None /\ type_of c = lit "string";
  (* columns are named *)
  nf_named : forall k c n, In k ks -> In c (columns k) -> tc_header c <> col_n (Some n);
}.

(** ** Rows *)
(** The row has the keys [keys], in this order except that None is the value of all keys that are at other places *)
Definition in_step (keys : list pystr) (r : dict value) : Prop :=
  exists before moved after moved', r = before ++ moved ++ after /\ keys = map fst before ++ moved' ++ map fst after /\
    Permutation (map fst moved) moved' /\ Forall (fun kv => snd kv = PNone) moved.
(** What is needed for a value to survive in a column.  Single strings, integers, booleans and bytes always do; decimals if float is exact for them; other types if to_string and
    to_python of datatypes.py fit; times do not.  Lists of strings do if no item is null, in columns without default; other lists if JSON gives them back *)
Definition value_kept (P : py_fns) (c : col) (v : pyval value) : Prop :=
  match v with
  | PNone => True
  | POne x =>
      In (type_of c) (map lit ["string"; "integer"; "boolean"; "hexBinary"]%string) \/
      (type_of c = lit "decimal" /\ forall q, py_float P x = Ok q -> decimal_of P (SReal q) = Ok x) \/
      (~ In (type_of c) (map lit ["string"; "integer"; "boolean"; "hexBinary"; "decimal"; "time"]%string) /\
       forall t, to_string P (type_of c) x = Ok t -> to_python P (type_of c) t = Ok x)
  | PList l =>
      (type_of c = lit "string" /\ ~ In None l /\ st_default (tc_st c) = []) \/
      (type_of c <> lit "string" /\ forall t, dumps P l = Ok t -> t <> [] /\ loads P t = Ok (PList l))
  end.
Record rows_fit (P : py_fns) (k : ktable) (rows : list (dict value)) : Prop := {
  rf_step : forall r0 rest r, rows = r0 :: rest -> In r rest -> in_step (map fst r0) r;
  rf_values : forall r c v, In r rows -> In c (columns k) -> ~ is_list_key k (tc_header c) -> dget str_eqb r (tc_header c) = Some v -> value_kept P c v;
  (* a primary key of one column is given *)
  rf_key : forall r p, In r rows -> k_pk k = Some [p] -> exists x, dget str_eqb r p = Some (POne x);
  (* keys in lists are strings, not empty, without white space *)
  rf_lists : forall r h l o, In r rows -> is_list_key k h -> dget str_eqb r h = Some (PList l) -> In o l -> exists t, o = Some (VStr t) /\ no_space t;
}.

(** ** What comes back *)
Definition rows_in (out : list (pystr * list outrow)) (n : pystr) : list outrow := match dget str_eqb out n with Some l => l | None => [] end.
(** The row [o] of the database for the row [r] of the table: it has the columns of the table, with the same values, or None for columns that the row does not have;
    for list-valued foreign keys the listed keys, in some order, and [] for None *)
Record row_kept (k : ktable) (r : dict value) (o : outrow) : Prop := {
  kp_columns : Permutation (map fst o) (map tc_header (columns k));
  kp_values : forall c, In c (columns k) -> ~ is_list_key k (tc_header c) -> dget str_eqb o (tc_header c) = Some (value_or_none r (tc_header c));
  kp_lists : forall h, is_list_key k h -> exists keys, dget str_eqb o h = Some (PList (map (fun t => Some (VStr t)) keys)) /\ Permutation keys (listed r h);
}.

(** Reading cells of type string gives the text itself; of these types, values of the corresponding classes; there is no type with an empty name *)
Record types_fit (W : Descr.world value) : Prop := {
  tf_string : forall f s v, Descr.w_parse W (lit "string") f (Json.JStr s) = Ok v -> v = VStr s;
  tf_integer : forall f s v, Descr.w_parse W (lit "integer") f (Json.JStr s) = Ok v -> exists z, v = VInt z;
  tf_boolean : forall f s v, Descr.w_parse W (lit "boolean") f (Json.JStr s) = Ok v -> exists b, v = VBool b;
  tf_hexBinary : forall f s v, Descr.w_parse W (lit "hexBinary") f (Json.JStr s) = Ok v -> exists b, v = VBytes b;
  tf_empty : forall f s v, Descr.w_parse W [] f (Json.JStr s) <> Ok v;
}.
