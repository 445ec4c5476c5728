(** The SQL text that db.py generates (db.py:82-123, 150-191, 288-304, 406-418). *)
From Verif Require Import PyStr Dec Group Sql Db.

(** a SchemaTranslator: the name of a table, or of a column of it *)
Definition translator : Type := pystr -> option pystr -> pystr.
(** db.py:386-397 name_translator: column or table *)
Definition name_translator : translator := fun t c => match c with Some (x :: s) => x :: s | _ => t end.

(** '`{0}`'.format(name) *)
Definition bt (n : pystr) : pystr := BT :: n ++ [BT].
(** db.py:82-83 quoted *)
Definition quoted (names : list pystr) : pystr := join (lit ",") (map bt names).

Section Sql.
Variable tr : translator.

(** db.py:150-183 check: the constraints *)
Definition date_func (csvw_type : pystr) : option pystr :=
  if str_eqb csvw_type (lit "date") then Some (lit "date")
  else if str_eqb csvw_type (lit "datetime") then Some (lit "datetime") else None.
Definition compare_sql (cname op : pystr) (func : option pystr) (bound : pystr) : pystr :=
  match func with
  | Some f => f ++ lit "(" ++ bt cname ++ lit ") " ++ op ++ lit " " ++ f ++ lit "('" ++ bound ++ lit "')"
  | None => bt cname ++ lit " " ++ op ++ lit " " ++ bound
  end.
Definition length_sql (cname op : pystr) (n : option Z) : list pystr :=
  match n with
  | None | Some 0%Z => []
  | Some z => [lit "length(" ++ bt cname ++ lit ") " ++ op ++ lit " " ++ int_str z]
  end.
Definition opt_list {A B} (o : option A) (f : A -> B) : list B := match o with Some a => [f a] | None => [] end.
Definition constraints (cname : pystr) (t : pystr) (d : dtinfo) : list pystr :=
  match di_min d, di_max d with
  | None, None => length_sql cname (lit "=") (di_length d) ++ length_sql cname (lit ">=") (di_minLength d) ++
                  length_sql cname (lit "<=") (di_maxLength d)
  | mn, mx => opt_list mn (compare_sql cname (lit ">=") (date_func t)) ++ opt_list mx (compare_sql cname (lit "<=") (date_func t))
  end.
Definition check_sql (cname : pystr) (c : colspec) : pystr :=
  match cs_csvw c with None => [] | Some d => join (lit " AND ") (constraints cname (cs_type c) d) end.
Definition type_sql (t : sqltype) : pystr :=
  match t with TEXT => lit "TEXT" | INTEGER => lit "INTEGER" | REAL => lit "REAL" | BLOB => lit "BLOB" end.
(** db.py:191 ' CHECK ({0})'.format(_check) if _check else '' *)
Definition suffix (check : pystr) : pystr := match check with [] => [] | _ => lit " CHECK (" ++ check ++ lit ")" end.
(** db.py:185-191 ColSpec.sql; [table] is the name bound by functools.partial *)
Definition col_sql (table : pystr) (c : colspec) : pystr :=
  let cname := tr table (Some (cs_name c)) in
  let check := check_sql cname c in
  bt cname ++ lit " " ++ type_sql (cs_db_type c) ++ (if cs_required c then lit " NOT NULL" else []) ++
  suffix check.
(** db.py:298-302 *)
Definition fk_sql (table : pystr) (fk : fkspec) : pystr :=
  let '(cols, ref, refcols) := fk in
  lit "FOREIGN KEY(" ++ quoted (map (fun c => tr table (Some c)) cols) ++ lit ") REFERENCES " ++ quoted [tr ref None] ++
  lit "(" ++ quoted (map (fun c => tr ref (Some c)) refcols) ++ lit ") ON DELETE CASCADE".
Definition clauses (s : tablespec) : list pystr :=
  map (col_sql (ts_name s)) (ts_cols s) ++
  match ts_pk s with
  | [] => []
  | pk => [lit "PRIMARY KEY(" ++ quoted (map (fun c => tr (ts_name s) (Some c)) pk) ++ lit ")"]
  end ++ map (fk_sql (ts_name s)) (ts_fks s).
(** db.py:288-304 TableSpec.sql *)
Definition table_sql (s : tablespec) : pystr :=
  lit "CREATE TABLE IF NOT EXISTS `" ++ tr (ts_name s) None ++ lit "` (" ++ [LF] ++ lit "    " ++
  join (lit "," ++ [LF] ++ lit "    ") (clauses s) ++ [LF] ++ lit ")".
(** db.py:104-107 *)
Definition insert_sql (table : pystr) (keys : list pystr) : pystr :=
  lit "INSERT INTO " ++ quoted [tr table None] ++ lit " (" ++ quoted (map (fun k => tr table (Some k)) keys) ++
  lit ") VALUES (" ++ join (lit ",") (map (fun _ => lit "?") keys) ++ lit ")".
(** db.py:406-418, with a context *)
Definition group_sql (a : assoc) (context : pystr) : pystr :=
  lit "SELECT " ++ quoted [tr (as_name a) (Some (as_afk a))] ++ lit ", group_concat(" ++
  quoted [tr (as_name a) (Some (as_bfk a))] ++ lit ", ' '), group_concat(COALESCE(context, ''), '||')" ++ [LF] ++
  lit "FROM " ++ quoted [tr (as_name a) None] ++ lit " WHERE context = '" ++ context ++ lit "' GROUP BY " ++
  quoted [tr (as_name a) (Some (as_afk a))].
End Sql.
(** db.py:121 *)
Definition select_sql (table : pystr) : pystr := lit "SELECT * FROM " ++ quoted [table].

(** ** The statements meant *)
(** a bound as an operand: a number, possibly with a sign *)
Definition num_operand (s : pystr) : operand := match s with 45 :: d => ONum true d | _ => ONum false s end.
Definition compare_atom (cname : pystr) (op : cmp) (func : option pystr) (bound : pystr) : atom :=
  match func with
  | Some f => {| at_l := OFun (map up1 f) (OCol cname); at_op := op; at_r := OFun (map up1 f) (OStr bound) |}
  | None => {| at_l := OCol cname; at_op := op; at_r := num_operand bound |}
  end.
Definition length_atom (cname : pystr) (op : cmp) (n : option Z) : list atom :=
  match n with
  | None | Some 0%Z => []
  | Some z => [{| at_l := OFun (lit "LENGTH") (OCol cname); at_op := op; at_r := num_operand (int_str z) |}]
  end.
Definition atoms (cname : pystr) (t : pystr) (d : dtinfo) : list atom :=
  match di_min d, di_max d with
  | None, None => length_atom cname EqS (di_length d) ++ length_atom cname Ge (di_minLength d) ++ length_atom cname Le (di_maxLength d)
  | mn, mx => opt_list mn (compare_atom cname Ge (date_func t)) ++ opt_list mx (compare_atom cname Le (date_func t))
  end.
Definition coldef_of (tr : translator) (table : pystr) (c : colspec) : coldef :=
  let cname := tr table (Some (cs_name c)) in
  {| cd_name := cname; cd_type := cs_db_type c; cd_notnull := cs_required c;
     cd_check := match cs_csvw c with None => [] | Some d => atoms cname (cs_type c) d end |}.
Definition create_of (tr : translator) (s : tablespec) : stmt :=
  SCreate (tr (ts_name s) None) (map (coldef_of tr (ts_name s)) (ts_cols s))
    (map (fun c => tr (ts_name s) (Some c)) (ts_pk s))
    (map (fun fk => (map (fun c => tr (ts_name s) (Some c)) (fst (fst fk)), tr (snd (fst fk)) None,
                     map (fun c => tr (snd (fst fk)) (Some c)) (snd fk))) (ts_fks s)).
