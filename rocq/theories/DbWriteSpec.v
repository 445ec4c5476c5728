(** Specifications for writing and reading databases (C39, C40, C43). *)
From Coq Require Import QArith Permutation.
From Verif Require Import PyStr Dsv Dec Dates Datatype Column Group Sql Db DbSql DbSqlSpec Sqlite DbWrite.
Open Scope N_scope.

(** ** C43 *)
(** no table has rows *)
Definition row_free (D : db) : Prop := forall t, In t D -> tb_rows t = [].
(** the tables of before, with the same rows, and new tables without rows *)
Definition no_new_rows (before after : db) : Prop := exists new, after = before ++ new /\ row_free new.
(** a connection without open transaction *)
Definition idle (c : conn) : Prop := c_work c = None.
Definition new_conn : conn := {| c_disk := []; c_work := None; c_log := [] |}.

(** ** C39, C40 *)
(** The tables: no two of them have the same name in SQL, their names and bounds can be put into SQL, they have the column
    types that ColSpec gives them, primary keys consist of columns, and association tables are there. *)
Record tables_ok (tr : translator) (tables : list tablespec) : Prop := {
  tk_names : NoDup (map (fun s => ascii_lower (tr (ts_name s) None)) tables);
  tk_sql : forall s, In s tables -> sql_clean tr s;
  tk_types : forall s c, In s tables -> In c (ts_cols s) -> cs_db_type c = db_type (cs_type c) (cs_separator c);
  tk_pk : forall s p, In s tables -> In p (ts_pk s) -> In p (map cs_name (ts_cols s));
  tk_assoc : forall s k a, In s tables -> In (k, a) (ts_m2m s) -> In (association_table a) tables /\ as_a a = ts_name s;
}.

(** the rows given for a table *)
Definition data (items : list (pystr * list drow)) (s : tablespec) : list drow := match dget str_eqb items (ts_name s) with Some rows => rows | None => [] end.
(** the table is not an association table *)
Definition free (tables : list tablespec) (s : tablespec) : Prop := forall s' k a, In s' tables -> In (k, a) (ts_m2m s') -> as_name a <> ts_name s.
(** no rows are given for association tables *)
Definition only_tables (tables : list tablespec) (items : list (pystr * list drow)) : Prop :=
  forall s k a, In s tables -> In (k, a) (ts_m2m s) -> dget str_eqb items (as_name a) = None.

(** Values that survive: None; for single values the type of the column, if its text or float can be read back; for lists of strings,
    lists that splitting gives back (no item contains the separator); for other lists, what JSON gives back. *)
Definition value_ok (P : py_fns) (c : colspec) (v : pyval value) : Prop :=
  match v with
  | PNone => True
  | POne x =>
      opt_true (cs_separator c) = false /\
      if is_type (cs_type c) (lit "string") then exists t, x = VStr t
      else if is_type (cs_type c) (lit "integer") then exists z, x = VInt z
      else if is_type (cs_type c) (lit "hexBinary") then exists b, x = VBytes b
      else if is_type (cs_type c) (lit "boolean") then exists b, x = VBool b
      else if is_type (cs_type c) (lit "decimal") then forall q, py_float P x = Ok q -> decimal_of P (SReal q) = Ok x
      else is_type (cs_type c) (lit "time") = false /\ forall t, to_string P (cs_type c) x = Ok t -> to_python P (cs_type c) t = Ok x
  | PList l =>
      exists c0 sep, cs_separator c = Some (c0 :: sep) /\
      if is_type (cs_type c) (lit "string") then
        exists ts, l = map (fun t => Some (VStr t)) ts /\ (ts = [] \/ ts <> [[]] /\ split (c0 :: sep) (join (c0 :: sep) ts) = ts)
      else forall t, dumps P l = Ok t -> t <> [] /\ loads P t = Ok (PList l)
  end.
Definition value_or_none (r : drow) (k : pystr) : pyval value := match dget str_eqb r k with Some v => v | None => PNone end.
(** Rows of a table: all with the same keys in the same order; values that survive; a primary key of one column is not a list, and is
    given if it is an integer. *)
Record rows_ok (P : py_fns) (s : tablespec) (rows : list drow) : Prop := {
  rk_keys : exists keys, NoDup keys /\ forall r, In r rows -> map fst r = keys;
  rk_values : forall r c, In r rows -> In c (ts_cols s) -> value_ok P c (value_or_none r (cs_name c));
  rk_pk : forall r c, In r rows -> In c (ts_cols s) -> ts_pk s = [cs_name c] ->
    opt_true (cs_separator c) = false /\ (cs_db_type c = INTEGER -> dget str_eqb r (cs_name c) <> Some PNone);
}.
(** List-valued foreign keys: the primary key is a string, given in each row; the lists contain strings that are neither empty
    nor contain whitespace; the names of the columns are usable in SQL and not translated. *)
Definition no_space (t : pystr) : Prop := t <> [] /\ forall c, In c t -> is_space c = false.
(** the keys listed in a row *)
Definition listed (r : drow) (k : pystr) : list pystr :=
  match value_or_none r k with
  | PList l => flat_map (fun o => match o with Some (VStr t) => [t] | _ => [] end) l
  | _ => []
  end.
Record lists_ok (tr : translator) (s : tablespec) (rows : list drow) : Prop := {
  lk_pk : ts_m2m s = [] \/ exists c, In c (ts_cols s) /\ ts_pk s = [cs_name c] /\ cs_type c = lit "string" /\ opt_true (cs_separator c) = false /\
            forall r, In r rows -> exists t, dget str_eqb r (cs_name c) = Some (POne (VStr t));
  lk_lists : forall r k a, In r rows -> In (k, a) (ts_m2m s) ->
             value_or_none r k = PNone \/
             exists ts, value_or_none r k = PList (map (fun t => Some (VStr t)) ts) /\ Forall no_space ts;
  lk_columns : NoDup (map fst (ts_m2m s)) /\ forall k a, In (k, a) (ts_m2m s) ->
             tr (ts_name s) (Some k) = k /\ (forall c, In c (ts_cols s) -> tr (ts_name s) (Some (cs_name c)) <> k /\ cs_name c <> k) /\
             ~ In QT k /\ ~ In 0 k /\ tr (as_name a) (Some (lit "context")) = lit "context";
}.
(** What is expected when reading: the columns in the order of the table description, with the value written, or None; and
    for a list-valued foreign key the list of the keys written, in some order ([] for None). *)
Definition cells (tr : translator) (s : tablespec) (r : drow) : outrow :=
  map (fun c => (tr (ts_name s) (Some (cs_name c)), value_or_none r (cs_name c))) (ts_cols s).
Definition row_back (tr : translator) (s : tablespec) (r : drow) (out : outrow) : Prop :=
  exists lists, out = cells tr s r ++ map (fun kl => (fst kl, PList (map (fun t => Some (VStr t)) (snd kl)))) lists /\
  Forall2 (fun ka kl => fst kl = fst ka /\ Permutation (snd kl) (listed r (fst ka))) (ts_m2m s) lists.
(** the same with the keys in the order in which they were written *)
Definition row_exact (tr : translator) (s : tablespec) (r : drow) (out : outrow) : Prop :=
  out = cells tr s r ++ map (fun ka => (fst ka, PList (map (fun t => Some (VStr t)) (listed r (fst ka))))) (ts_m2m s).
(** the rows read for a table: those under its name in SQL; a table without rows has no entry *)
Definition got_rows (tr : translator) (out : list (pystr * list outrow)) (n : pystr) : list outrow :=
  match dget str_eqb out (tr n None) with Some l => l | None => [] end.

(** Values of the types that need nothing of datatypes.py, floats or JSON: strings, integers, booleans, bytes, and lists of strings, for a separator of one
    character that is in none of them. *)
Definition basic_value (c : colspec) (v : pyval value) : Prop :=
  match v with
  | PNone => True
  | POne x => opt_true (cs_separator c) = false /\
      match x with
      | VStr _ => cs_type c = lit "string"
      | VInt _ => cs_type c = lit "integer"
      | VBool _ => cs_type c = lit "boolean"
      | VBytes _ => cs_type c = lit "hexBinary"
      | _ => False
      end
  | PList l => cs_type c = lit "string" /\ exists ch, cs_separator c = Some [ch] /\
      exists ts, l = map (fun t => Some (VStr t)) ts /\ ts <> [[]] /\ forall t, In t ts -> ~ In ch t
  end.

(** what is stored for a value of a row, or for none *)
Definition cell_stored (P : py_fns) (St : store_fns) (c : colspec) (o : option (pyval value)) (v : sval) : Prop :=
  match o with
  | None => v = SNull
  | Some pv => exists b u, cell_value P c pv = Ok b /\ bind_value P b = Ok u /\ v = affinity St (cs_db_type c) u
  end.
Definition row_stored (P : py_fns) (St : store_fns) (s : tablespec) (r : drow) (x : row) : Prop :=
  Forall2 (fun c v => cell_stored P St c (dget str_eqb r (cs_name c)) v) (ts_cols s) x.
