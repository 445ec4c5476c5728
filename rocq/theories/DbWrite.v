(** Writing a table group to SQLite and reading it back (db.py:86-123, 399-421, 437-581). *)
From Coq Require Import QArith.
From Verif Require Import PyStr Dsv Dec Dates Datatype Column Group Sql Db DbSql Sqlite.
Open Scope N_scope.

(** What is used of Python and of datatypes.py, for values of the types modelled (Datatype.v):
    DATATYPES[t].to_string(v) and DATATYPES[t].to_python(s), float(v), int(v) for values other than bool and int, the Python object of
    a float, decimal.Decimal(x) of what the database returns, json.dumps of a list, json.loads, and how the sqlite3
    module stores a datetime.  Types other than those of TYPE_MAP are stored as text. *)
Record py_fns := {
  to_string : pystr -> value -> res pystr;
  to_python : pystr -> pystr -> res value;
  py_float : value -> res Q;
  py_int : value -> res Z;
  of_float : Q -> value;
  decimal_of : sval -> res value;
  dumps : list (option value) -> res pystr;
  loads : pystr -> res (pyval value);
  adapt : dt -> pystr;
}.

Section Db.
Variable P : py_fns.
Variable St : store_fns.

(** ** Conversion of values *)
(** what is passed to the database: a value of a row, or a float *)
Inductive bval := BVal (v : pyval value) | BReal (q : Q).
Definition is_type (t name : pystr) : bool := str_eqb t name.
Definition identity_type (t : pystr) : bool := is_type t (lit "string") || is_type t (lit "integer") || is_type t (lit "hexBinary").
(** db.py:48-69, 140-148: convert, for a value that is not None *)
Definition convert (t : pystr) (v : value) : res bval :=
  if identity_type t then Ok (BVal (POne v))
  else if is_type t (lit "boolean") then
    match v with
    | VBool b => Ok (BVal (POne (VInt (if b then 1 else 0))))
    | VInt z => Ok (BVal (POne (VInt z)))
    | _ => z <- py_int P v ;; Ok (BVal (POne (VInt z)))
    end
  else if is_type t (lit "decimal") then q <- py_float P v ;; Ok (BReal q)
  else s <- to_string P t v ;; Ok (BVal (POne (VStr s))).
(** col.convert(vv) or '' for strings (datatype string: convert is the identity); joining what is not a str is a TypeError *)
Definition list_item (o : option value) : res pystr :=
  match o with
  | None => Ok []
  | Some (VStr s) => Ok s
  | Some v => if v_truthy value_ops v then Err TypeError else Ok []
  end.
(** db.py:563-571 *)
Definition cell_value (c : colspec) (v : pyval value) : res bval :=
  match v with
  | PList l =>
      if is_type (cs_type c) (lit "string") then
        items <- mapM list_item l ;;
        Ok (BVal (POne (VStr (join (match cs_separator c with Some (x :: s) => x :: s | _ => lit ";" end) items))))
      else s <- dumps P l ;; Ok (BVal (POne (VStr s)))
  | PNone => Ok (BVal PNone)
  | POne v => convert (cs_type c) v
  end.
(** the sqlite3 module: Python objects as values of the database *)
Definition surrogate (c : N) : bool := (55296 <=? c) && (c <=? 57343).
Definition bind_text (s : pystr) : res sval := if existsb surrogate s then Err OtherError else Ok (SText s).
Definition bind_value (b : bval) : res sval :=
  match b with
  | BReal q => Ok (SReal q)
  | BVal PNone => Ok SNull
  | BVal (PList _) => Err OtherError
  | BVal (POne v) =>
      match v with
      | VStr s => bind_text s
      | VBytes b => Ok (SBlob b)
      | VBool b => Ok (SInt (if b then 1 else 0))
      | VInt z => if int64 z then Ok (SInt z) else Err OverflowError
      | VDec _ => Err OtherError
      | VDate d => bind_text (adapt P d)
      end
  end.

(** ** Connections *)
(** what is on disk (or committed, for an in-memory database), the state within a transaction, and the earlier states of the disk *)
Record conn := { c_disk : db; c_work : option db; c_log : list db }.
Definition current (c : conn) : db := match c_work c with Some D => D | None => c_disk c end.
(** a change outside of a transaction is committed at once *)
Definition set_current (c : conn) (D : db) : conn :=
  match c_work c with
  | Some _ => {| c_disk := c_disk c; c_work := Some D; c_log := c_log c |}
  | None => {| c_disk := D; c_work := None; c_log := c_log c ++ [c_disk c] |}
  end.
Definition begin_ (c : conn) : conn := {| c_disk := c_disk c; c_work := Some (current c); c_log := c_log c |}.
Definition commit (c : conn) : conn :=
  match c_work c with
  | Some D => {| c_disk := D; c_work := None; c_log := c_log c ++ [c_disk c] |}
  | None => c
  end.
Definition rollback (c : conn) : conn := {| c_disk := c_disk c; c_work := None; c_log := c_log c |}.

(** db.execute(sql) for a statement without parameters: sqlite3 opens no transaction for CREATE *)
Definition execute (c : conn) (sql : pystr) : conn * res unit :=
  match parse sql with
  | Some (SCreate n cols pk fks) =>
      match create St (current c) n cols pk fks with
      | Ok D => (set_current c D, Ok tt)
      | Err e => (c, Err e)
      end
  | Some (SInsert _ _ _) => (c, Err OtherError) (* parameters are missing *)
  | Some _ => (c, Ok tt)
  | None => (c, Err OtherError)
  end.
(** db.executemany(sql, rows): the rows before the one that fails stay *)
Definition insert_one (c : conn) (n : pystr) (cols : list pystr) (k : nat) (r : list bval) : conn * res unit :=
  match (vals <- mapM bind_value r ;; if Nat.eqb (length vals) k then insert_row St (current c) n cols vals else Err OtherError) with
  | Ok D => (set_current c D, Ok tt)
  | Err e => (c, Err e)
  end.
Fixpoint insert_all (c : conn) (n : pystr) (cols : list pystr) (k : nat) (rows : list (list bval)) : conn * res unit :=
  match rows with
  | [] => (c, Ok tt)
  | r :: rest => match insert_one c n cols k r with
                 | (c', Ok _) => insert_all c' n cols k rest
                 | (c', Err e) => (c', Err e)
                 end
  end.
Definition executemany (c : conn) (sql : pystr) (rows : list (list bval)) : conn * res unit :=
  match parse sql with
  | Some (SInsert n cols k) => insert_all (begin_ c) n cols k rows
  | _ => (c, Err OtherError)
  end.
(** executing statement by statement, stopping at the first exception *)
Fixpoint each {A} (f : conn -> A -> conn * res unit) (c : conn) (l : list A) : conn * res unit :=
  match l with
  | [] => (c, Ok tt)
  | x :: rest => match f c x with
                 | (c', Ok _) => each f c' rest
                 | (c', Err e) => (c', Err e)
                 end
  end.

Variable tr : translator.
(** db.py:86-117 insert *)
Definition insert_single (table : pystr) (keys : list pystr) (c : conn) (r : list bval) : conn * res unit :=
  executemany c (insert_sql tr table keys) [r].
Definition insert (c : conn) (table : pystr) (keys : list pystr) (rows : list (list bval)) : conn * res unit :=
  match rows with
  | [] => (c, Ok tt)
  | _ => match executemany c (insert_sql tr table keys) rows with
         | (c', Ok _) => (c', Ok tt)
         | (c', Err _) => each (insert_single table keys) c' rows
         end
  end.

(** ** Database.write: db.py:516-581 *)
(** a row of data: a dict from column names to values *)
Definition drow : Type := list (pystr * pyval value).
(** the rows to put into association tables: table and columns, in the order of their first use, with the rows *)
Definition refs : Type := list ((pystr * list pystr) * list (list bval)).
Definition atkey (a : assoc) : pystr * list pystr := (as_name a, [as_afk a; as_bfk a; lit "context"]).
Definition atkey_eqb (a b : pystr * list pystr) : bool :=
  str_eqb (fst a) (fst b) && (if list_eq_dec str_eq_dec (snd a) (snd b) then true else false).
Definition add_ref (R : refs) (k : pystr * list pystr) (r : list bval) : refs :=
  match dget atkey_eqb R k with
  | Some l => dset atkey_eqb R k (l ++ [r])
  | None => dset atkey_eqb R k [r]
  end.
(** the items of a list-valued foreign key: for vv in (v or []) *)
Definition ref_items (v : pyval value) : res (list (option value)) :=
  match v with
  | PNone => Ok []
  | PList l => Ok l
  | POne v => if v_truthy value_ops v then
                match v with
                | VStr s => Ok (map (fun c => Some (VStr [c])) s)
                | VBytes b => Ok (map (fun c => Some (VInt (Z.of_N c))) b)
                | _ => Err TypeError
                end
              else Ok []
  end.
Definition opt_py (o : option value) : pyval value := match o with Some v => POne v | None => PNone end.
Definition py_true (v : pyval value) : bool :=
  match v with PNone => false | POne v => v_truthy value_ops v | PList l => match l with [] => false | _ => true end end.
Section Write.
Variable skip_extra : bool.
Variable s : tablespec.
(** cols = {c.name: c for c in t.columns} *)
Definition cols_dict : list (pystr * colspec) := dset_all str_eqb [] (map (fun c => (cs_name c, c)) (ts_cols s)).
(** one item of a row (:545-574): its column and value if it is stored in the table, and the new association rows *)
Definition write_item (pk : pyval value) (R : refs) (kv : pystr * pyval value) : res (option (pystr * bval) * refs) :=
  let (k, v) := kv in
  match dget str_eqb (ts_m2m s) k with
  | Some a =>
      if py_true pk then
        items <- ref_items v ;;
        Ok (None, fold_left (fun R vv => add_ref R (atkey a) [BVal pk; BVal (opt_py vv); BVal (POne (VStr k))]) items R)
      else Err AssertionError
  | None =>
      match dget str_eqb cols_dict k with
      | None => if skip_extra then Ok (None, R) else Err ValueError
      | Some c => b <- cell_value c v ;; Ok (Some (cs_name c, b), R)
      end
  end.
Fixpoint write_items (pk : pyval value) (R : refs) (items : drow) : res (list (pystr * bval) * refs) :=
  match items with
  | [] => Ok ([], R)
  | kv :: rest =>
      x <- write_item pk R kv ;;
      y <- write_items pk (snd x) rest ;;
      Ok (match fst x with Some p => p :: fst y | None => fst y end, snd y)
  end.
(** :542-543 *)
Definition row_pk (r : drow) : res (pyval value) :=
  match ts_pk s with
  | [p] => match dget str_eqb r p with Some v => Ok v | None => Err KeyError end
  | _ => Ok PNone
  end.
Definition write_row (R : refs) (r : drow) : res (list (pystr * bval) * refs) := pk <- row_pk r ;; write_items pk R r.
Fixpoint write_rows (R : refs) (rows : list drow) : res (list (list (pystr * bval)) * refs) :=
  match rows with
  | [] => Ok ([], R)
  | r :: rest => x <- write_row R r ;; y <- write_rows (snd x) rest ;; Ok (fst x :: fst y, snd y)
  end.
End Write.
(** (:536-576) one table; the keys are those of the first row *)
Definition write_table (skip_extra : bool) (items : list (pystr * list drow)) (cR : conn * refs) (s : tablespec) : (conn * refs) * res unit :=
  let (c, R) := cR in
  match dget str_eqb items (ts_name s) with
  | None => (cR, Ok tt)
  | Some rows =>
      match write_rows skip_extra s R rows with
      | Err e => (cR, Err e)
      | Ok (rs, R') =>
          let keys := match rs with r :: _ => map fst r | [] => [] end in
          let (c', res) := insert c (ts_name s) keys (map (map snd) rs) in
          ((c', R'), res)
      end
  end.
Fixpoint write_tables (skip_extra : bool) (items : list (pystr * list drow)) (cR : conn * refs) (ts : list tablespec) : (conn * refs) * res unit :=
  match ts with
  | [] => (cR, Ok tt)
  | s :: rest => match write_table skip_extra items cR s with
                 | (cR', Ok _) => write_tables skip_extra items cR' rest
                 | (cR', Err e) => (cR', Err e)
                 end
  end.
(** (:528-581) with an open connection *)
Definition write_conn (skip_extra : bool) (tables : list tablespec) (items : list (pystr * list drow)) (c : conn) : conn * res unit :=
  match each (fun c s => execute c (table_sql tr s)) c tables with
  | (c1, Err e) => (c1, Err e)
  | (c1, Ok _) =>
      match write_tables skip_extra items (commit c1, []) tables with
      | ((c2, _), Err e) => (c2, Err e)
      | ((c2, R), Ok _) =>
          match each (fun c (kr : (pystr * list pystr) * list (list bval)) => insert c (fst (fst kr)) (snd (fst kr)) (snd kr)) c2 R with
          | (c3, Err e) => (c3, Err e)
          | (c3, Ok _) => (commit c3, Ok tt)
          end
      end
  end.
(** ** Database.write with a file (:522-528): [file] is what is at the path, if there is something.  The result is the
    states the file was in, what is there in the end, and the outcome.  contextlib.closing closes the connection, which
    rolls back an open transaction. *)
Definition write_file (force skip_extra : bool) (tables : list tablespec) (items : list (pystr * list drow)) (file : option db)
  : list (option db) * option db * res unit :=
  match file with
  | Some _ => if force then
                let (c, r) := write_conn skip_extra tables items {| c_disk := []; c_work := None; c_log := [] |} in
                (file :: None :: map Some (c_log (rollback c)), Some (c_disk (rollback c)), r)
              else ([], file, Err ValueError)
  | None => let (c, r) := write_conn skip_extra tables items {| c_disk := []; c_work := None; c_log := [] |} in
            (None :: map Some (c_log (rollback c)), Some (c_disk (rollback c)), r)
  end.
(** With an in-memory database (:402-404, 528): `with connection` commits, or rolls back after an exception *)
Definition write_memory (skip_extra : bool) (tables : list tablespec) (items : list (pystr * list drow)) (c : conn) : conn * res unit :=
  match write_conn skip_extra tables items c with
  | (c', Ok _) => (commit c', Ok tt)
  | (c', Err e) => (rollback c', Err e)
  end.

(** ** Database.read: db.py:437-491 *)
(** what sqlite3 returns, as a value *)
Definition of_sval (v : sval) : value :=
  match v with SNull => VStr [] (* not used *) | SInt z => VInt z | SReal q => of_float P q | SText s => VStr s | SBlob b => VBytes b end.
Definition sv_true (v : sval) : bool :=
  match v with
  | SNull => false
  | SInt z => negb (Z.eqb z 0)
  | SReal q => negb (Z.eqb (Qnum q) 0)
  | SText s => match s with [] => false | _ => true end
  | SBlob b => match b with [] => false | _ => true end
  end.
(** :453-459 convert, for a value that is not None; to_python of a time without format is an AssertionError (datatypes.py:437) *)
Definition read_one (t : pystr) (v : sval) : res value :=
  if identity_type t then Ok (of_sval v)
  else if is_type t (lit "boolean") then Ok (VBool (sv_true v))
  else if is_type t (lit "decimal") then decimal_of P v
  else match v with
       | SText x => if is_type t (lit "time") then Err AssertionError else to_python P t x
       | _ => Err TypeError
       end.
(** :475-485; of what a column with a separator contains, only texts are modelled (the column has type TEXT) *)
Definition read_value (c : colspec) (v : sval) : res (pyval value) :=
  match v with
  | SNull => Ok PNone
  | _ =>
      match cs_separator c with
      | Some (x :: sep) =>
          if sv_true v then
            match v with
            | SText t => if is_type (cs_type c) (lit "string") then Ok (PList (map (fun i => Some (VStr i)) (split (x :: sep) t)))
                         else loads P t
            | _ => Err TypeError
            end
          else Ok (PList [])
      | _ => r <- read_one (cs_type c) v ;; Ok (POne r)
      end
  end.
(** keys of [refs]: what the database returns for the first column of the association table, compared with the primary key of a row *)
Definition key_eqb (a b : option value) : bool :=
  match a, b with
  | None, None => true
  | Some (VStr x), Some (VStr y) => str_eqb x y
  | Some (VBytes x), Some (VBytes y) => str_eqb x y
  | _, _ => false
  end.
(** :406-421 select_many_to_many with a context: the keys are texts (the columns have type TEXT), bytes or None *)
Definition select_m2m (D : db) (a : assoc) (context : pystr) : res (list (option value * list pystr)) :=
  match parse (group_sql tr a context) with
  | Some (SGroup k v n ctx) =>
      rows <- select_group St D k v n ctx ;;
      pairs <- mapM (fun r => let '(k, x, y) := r in
                 match x, y with
                 | SText t, SText u => Ok (if is_null k then None else Some (of_sval k), map fst (combine (split_ws t) (split (lit "||") u)))
                 | _, _ => Err AttributeError
                 end) rows ;;
      Ok (dset_all key_eqb [] pairs)
  | Some _ => Err OtherError
  | None => Err OtherError
  end.
(** :466-469 refs, for one table *)
Definition refs_of : Type := list (option value * list (pystr * list pystr)).
Definition add_refs (R : refs_of) (col : pystr) (l : list (option value * list pystr)) : refs_of :=
  fold_left (fun R kv => dset key_eqb R (fst kv) (dset str_eqb (match dget key_eqb R (fst kv) with Some d => d | None => [] end) col (snd kv))) l R.
Fixpoint all_refs (D : db) (tname : pystr) (R : refs_of) (m2m : list (pystr * assoc)) : res refs_of :=
  match m2m with
  | [] => Ok R
  | (col, a) :: rest => l <- select_m2m D a col ;; all_refs D tname (add_refs R (tr tname (Some col)) l) rest
  end.
(** :453-459 convert: the column of the table description for a column of the database *)
Definition convert_dict (s : tablespec) : list (pystr * colspec) :=
  dset_all str_eqb [] (map (fun c => (tr (ts_name s) (Some (cs_name c)), c)) (ts_cols s)).
Definition outrow : Type := list (pystr * pyval value).
Definition read_row (s : tablespec) (R : refs_of) (names : list pystr) (r : row) : res outrow :=
  cells <- mapM (fun kv => match dget str_eqb (convert_dict s) (fst kv) with
                           | Some c => v <- read_value c (snd kv) ;; Ok (fst kv, v)
                           | None => match snd kv with SNull => Ok (fst kv, PNone) | _ => Err KeyError end
                           end) (combine names r) ;;
  let dd := dset_all str_eqb [] cells in
  pk <- match ts_pk s with
        | [p] => match dget str_eqb dd (tr (ts_name s) (Some p)) with
                 | Some (POne v) => Ok (Some v)
                 | Some PNone => Ok None
                 | Some (PList _) => Err TypeError (* unhashable *)
                 | None => Err KeyError
                 end
        | _ => Ok None
        end ;;
  let d1 := dset_all str_eqb dd (map (fun ka => (fst ka, PList [])) (ts_m2m s)) in
  Ok (match dget key_eqb R pk with
      | Some more => dset_all str_eqb d1 (map (fun kl => (fst kl, PList (map (fun x => Some (VStr x)) (snd kl)))) more)
      | None => d1
      end).
(** :437-491 for one table; tdict is the dict of the tables by name *)
Definition read_table (D : db) (tables : list tablespec) (tname : pystr) : res (list outrow) :=
  match dget str_eqb (dset_all str_eqb [] (map (fun s => (ts_name s, s)) tables)) tname with
  | None => Err KeyError
  | Some s =>
      R <- all_refs D tname [] (ts_m2m s) ;;
      match parse (select_sql (tr tname None)) with
      | Some (SSelectAll n) =>
          x <- select_all St D n ;;
          mapM (read_row s R (fst x)) (snd x)
      | Some _ => Err OtherError
      | None => Err OtherError
      end
  end.
(** a table without rows gets no entry; rows of tables with the same SQL name are put together *)
Fixpoint read_tables (D : db) (tables : list tablespec) (names : list pystr) (acc : list (pystr * list outrow)) : res (list (pystr * list outrow)) :=
  match names with
  | [] => Ok acc
  | n :: rest =>
      rows <- read_table D tables n ;;
      read_tables D tables rest
        (match rows with
         | [] => acc
         | _ => dset str_eqb acc (tr n None) (match dget str_eqb acc (tr n None) with Some l => l | None => [] end ++ rows)
         end)
  end.
Definition read (D : db) (tables : list tablespec) (names : list pystr) : res (list (pystr * list outrow)) := read_tables D tables names [].
End Db.
