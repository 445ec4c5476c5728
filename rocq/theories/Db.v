(** The database schema of a table group (db.py:48-343): column and table specifications, association tables for
    list-valued foreign keys, and the order in which tables are created. *)
From Verif Require Import PyStr Dsv Group Sql.

(** ** What db.py looks at in a table description *)
(** a Datatype: base, str(minimum), str(maximum), length, minLength, maxLength *)
Record dtinfo := { di_base : pystr; di_min : option pystr; di_max : option pystr;
                   di_length : option Z; di_minLength : option Z; di_maxLength : option Z }.
(** a Column: header, its own separator, and inherit('separator'), inherit('required'), inherit('datatype') *)
Record dcol := { dc_header : pystr; dc_separator : option pystr; dc_inh_separator : option pystr;
                 dc_required : bool; dc_datatype : option dtinfo }.
(** a ForeignKey: columnReference, whether it has a schemaReference, resource, columnReference of the reference *)
Record dfk := { dk_cols : list pystr; dk_schema : bool; dk_resource : pystr; dk_refcols : list pystr }.
(** a Table: local_name, columns, foreign keys, primary key ([] if None) *)
Record dtable := { dt_name : pystr; dt_cols : list dcol; dt_fks : list dfk; dt_pk : list pystr }.

(** ** ColSpec: db.py:126-148 *)
Record colspec := { cs_name : pystr; cs_type : pystr; cs_separator : option pystr; cs_db_type : sqltype;
                    cs_required : bool; cs_csvw : option dtinfo }.
(** the truth value of a string *)
Definition str_true (s : pystr) : bool := match s with [] => false | _ => true end.
Definition opt_true (o : option pystr) : bool := match o with Some s => str_true s | None => false end.
(** db.py:48-69 TYPE_MAP, 140-148 __attrs_post_init__ *)
Definition db_type (csvw_type : pystr) (sep : option pystr) : sqltype :=
  if opt_true sep then TEXT
  else if str_eqb csvw_type (lit "integer") || str_eqb csvw_type (lit "boolean") then INTEGER
  else if str_eqb csvw_type (lit "decimal") then REAL
  else if str_eqb csvw_type (lit "hexBinary") then BLOB
  else TEXT.
Definition new_colspec (name : pystr) (csvw_type : option pystr) (sep : option pystr) (required : bool) (dt : option dtinfo) : colspec :=
  let t := match csvw_type with Some (c :: s) => c :: s | _ => lit "string" end in
  {| cs_name := name; cs_type := t; cs_separator := sep; cs_db_type := db_type t sep; cs_required := required; cs_csvw := dt |}.

(** ** TableSpec: db.py:194-304 *)
(** a foreign key: columns, table, columns of that table *)
Definition fkspec : Type := list pystr * pystr * list pystr.
(** an association table: the two tables with their keys (db.py:265-286) *)
Record assoc := { as_a : pystr; as_apk : pystr; as_b : pystr; as_bpk : pystr }.
Record tablespec := { ts_name : pystr; ts_cols : list colspec; ts_fks : list fkspec; ts_m2m : list (pystr * assoc);
                      ts_pk : list pystr }.

Definition under : pystr := lit "_".
(** db.py:265-286 association_table *)
Definition as_name (a : assoc) : pystr := as_a a ++ under ++ as_b a.
Definition as_afk (a : assoc) : pystr :=
  let x := as_a a ++ under ++ as_apk a in
  if str_eqb x (as_b a ++ under ++ as_bpk a) then x ++ lit "_1" else x.
Definition as_bfk (a : assoc) : pystr :=
  let x := as_b a ++ under ++ as_bpk a in
  if str_eqb (as_a a ++ under ++ as_apk a) x then x ++ lit "_2" else x.
Definition association_table (a : assoc) : tablespec :=
  {| ts_name := as_name a;
     ts_cols := [new_colspec (as_afk a) None None false None; new_colspec (as_bfk a) None None false None;
                 new_colspec (lit "context") None None false None];
     ts_fks := [([as_afk a], as_a a, [as_apk a]); ([as_bfk a], as_b a, [as_bpk a])];
     ts_m2m := []; ts_pk := [] |}.

(** sorted() of a list of strings: stable *)
Fixpoint insert_str (x : pystr) (l : list pystr) : list pystr :=
  match l with
  | [] => [x]
  | y :: rest => match str_cmp x y with Gt => y :: insert_str x rest | _ => x :: y :: rest end
  end.
Definition sort_strs (l : list pystr) : list pystr := fold_right insert_str [] l.

(** db.py:229-252: one foreign key *)
Definition add_fk (drop_self : bool) (name : pystr) (pk : list pystr) (list_valued : list pystr)
  (acc : list fkspec * list (pystr * assoc)) (fk : dfk) : res (list fkspec * list (pystr * assoc)) :=
  if dk_schema fk then Ok acc
  else
    let plain :=
      if drop_self && str_eqb (dk_resource fk) name then Ok acc
      else Ok (fst acc ++ [(sort_strs (dk_cols fk), dk_resource fk, sort_strs (dk_refcols fk))], snd acc) in
    match dk_cols fk with
    | [c] =>
        if str_mem c list_valued then
          match dk_refcols fk, pk with
          | [r], [p] => Ok (fst acc, dset str_eqb (snd acc) c {| as_a := name; as_apk := p; as_b := dk_resource fk; as_bpk := r |})
          | _, _ => Err AssertionError
          end
        else plain
    | _ => plain
    end.
Fixpoint add_fks (drop_self : bool) (name : pystr) (pk list_valued : list pystr)
  (acc : list fkspec * list (pystr * assoc)) (fks : list dfk) : res (list fkspec * list (pystr * assoc)) :=
  match fks with
  | [] => Ok acc
  | fk :: rest => acc' <- add_fk drop_self name pk list_valued acc fk ;; add_fks drop_self name pk list_valued acc' rest
  end.
(** db.py:214-263 from_table_metadata *)
Definition list_valued (t : dtable) : list pystr := map dc_header (filter (fun c => opt_true (dc_separator c)) (dt_cols t)).
Definition colspec_of (c : dcol) : colspec :=
  new_colspec (dc_header c) (match dc_datatype c with Some d => Some (di_base d) | None => None end)
              (dc_inh_separator c) (dc_required c) (dc_datatype c).
Definition from_table_metadata (drop_self : bool) (t : dtable) : res tablespec :=
  r <- add_fks drop_self (dt_name t) (dt_pk t) (list_valued t) ([], []) (dt_fks t) ;;
  Ok {| ts_name := dt_name t;
        ts_cols := map colspec_of (filter (fun c => match dget str_eqb (snd r) (dc_header c) with Some _ => false | None => true end) (dt_cols t));
        ts_fks := fst r; ts_m2m := snd r; ts_pk := dt_pk t |}.

(** ** schema: db.py:307-343 *)
(** tg.tabledict.items(): the last table with a name, at the place of the first *)
Definition dtables (ts : list dtable) : list (pystr * dtable) := dset_all str_eqb [] (map (fun t => (dt_name t, t)) ts).
(** :319-325 *)
Fixpoint all_specs (drop_self : bool) (acc : list (pystr * tablespec)) (ts : list dtable) : res (list (pystr * tablespec)) :=
  match ts with
  | [] => Ok acc
  | t :: rest =>
      s <- from_table_metadata drop_self t ;;
      all_specs drop_self
        (dset_all str_eqb (dset str_eqb acc (ts_name s) s)
                  (map (fun ca => (as_name (snd ca), association_table (snd ca))) (ts_m2m s))) rest
  end.
(** :335-339: the first table all of whose references are in [ordered], or to itself *)
Definition ready (ordered : list pystr) (s : tablespec) (name : pystr) : bool :=
  forallb (fun fk => str_mem (snd (fst fk)) ordered || str_eqb (snd (fst fk)) name) (ts_fks s).
Fixpoint pop_ready (ordered : list pystr) (tables : list (pystr * tablespec)) : option (pystr * tablespec * list (pystr * tablespec)) :=
  match tables with
  | [] => None
  | (n, s) :: rest =>
      if ready ordered s n then Some (n, s, rest)
      else match pop_ready ordered rest with Some (x, rest') => Some (x, (n, s) :: rest') | None => None end
  end.
(** :327-343; [i] iterations are left.  A pass without a ready table changes nothing, and so do the passes after it *)
Fixpoint order_tables (i : nat) (ordered : list (pystr * tablespec)) (tables : list (pystr * tablespec)) : res (list (pystr * tablespec)) :=
  match tables with
  | [] => Ok ordered
  | _ =>
      match i with
      | O => Err ValueError
      | S i' =>
          match pop_ready (map fst ordered) tables with
          | Some (n, s, rest) => order_tables i' (dset str_eqb ordered n s) rest
          | None => order_tables i' ordered tables
          end
      end
  end.
Definition schema_passes (i : nat) (drop_self : bool) (ts : list dtable) : res (list tablespec) :=
  tables <- all_specs drop_self [] (map snd (dtables ts)) ;;
  l <- order_tables i [] tables ;;
  Ok (map snd l).
(** i < 100 *)
Definition schema (drop_self : bool) (ts : list dtable) : res (list tablespec) := schema_passes 100 drop_self ts.
