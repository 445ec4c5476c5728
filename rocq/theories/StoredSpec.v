(** What is written is valid (C71).  storable: FilesSpec.v; cell_warned, header_fits: QuietSpec.v; primary_key_unique, integrity_holds: GroupSpec.v. *)
From Verif Require Import PyStr PyCsv Dsv DsvSpec Dialects NatLang Column ColumnSpec Schema Table TableSpec QuietSpec Zip Files FilesSpec Group GroupSpec.

Section Spec.
Context {V : Type} (sc : scalars V) (pv : pyver) (lim : N).
(** a table to write: what its metadata say, and its rows *)
Record data := { da_name : pystr; da_dialect : dialect; da_lang : pystr; da_cols : list (tcol V); da_pk : option (list pystr); da_fks : list fkey; da_items : list (dict V) }.
(** the table as if its rows were those in memory *)
Definition in_memory (t : data) : @gtable V :=
  let o := {| io_rows := map (fun d => (0%nat, d)) (da_items t); io_msgs := []; io_warns := []; io_end := None |} in
  {| g_name := da_name t; g_cols := da_cols t; g_pk := da_pk t; g_fkeys := da_fks t; g_iter := fun _ => o; g_lax := o |}.
(** the table can be written so that it is read back (C27), validation accepts the names of the columns as headers - that is, columns have names, or titles in
    the language of the table - and does not warn of the texts written, see C60 (INF, say) *)
Record presentable (t : data) : Prop := {
  pr_storable : storable sc pv lim false (da_dialect t) (da_cols t) (da_items t);
  pr_headers : d_header (da_dialect t) = true -> forall c, In c (da_cols t) -> tc_virtual c = false -> header_fits (da_lang t) (tc_col c) (tc_header c);
  pr_separators : forall c, In c (da_cols t) -> st_separator (tc_st c) <> Some [];
  pr_quiet : forall kvs c v x, In kvs (da_items t) -> In c (da_cols t) -> tc_virtual c = false -> dget str_eqb kvs (tc_header c) = Some v ->
    col_write sc (tc_st c) v = Ok x -> ~ cell_warned sc (tc_st c) (cell_text x);
}.
(** primary keys, foreign keys and what they refer to are columns in the files *)
Definition key_columns (ts : list data) : Prop :=
  (forall t ks, In t ts -> da_pk t = Some ks -> names_columns (in_memory t) ks) /\
  (forall t fk, In t ts -> In fk (da_fks t) -> names_columns (in_memory t) (fk_cols fk)) /\
  (forall child fk target, refers_to (map in_memory ts) child fk target -> names_columns target (fk_refcols fk)).
(** the primary key of each table is unique, foreign keys are not null and satisfied (C32, C33) *)
Definition keys_hold (veq : V -> V -> bool) (ts : list data) : Prop :=
  (forall t, In t ts -> primary_key_unique veq (in_memory t)) /\ integrity_holds veq true false (map in_memory ts).
(** Table.write gives this file *)
Definition writes (strict : bool) (before : option pystr) (t : data) (file : pystr) : Prop :=
  table_write sc pv lim (da_dialect t) strict (da_cols t) before (map IDict (da_items t)) = (Some file, Ok (length (da_items t))).
(** the table with this file *)
Definition on_disk (expand : pystr -> dict V -> res pystr) (tf : data * pystr) : @gtable V :=
  of_table sc expand lim (da_dialect (fst tf)) (da_lang (fst tf)) (da_name (fst tf)) (da_cols (fst tf)) (da_pk (fst tf)) (da_fks (fst tf)) (snd tf).
(** ** A group in a directory (C72) *)
(** the table of a group, without its keys *)
Definition describes (g : fgroup V) (t : ftable V) (x : data) : Prop :=
  da_name x = t_url t /\ has_dialect g t (da_dialect x) /\ da_lang x = t_lang t /\ da_cols x = t_cols t.
(** the table with its file (or archive) in directory d *)
Definition from_files (expand : pystr -> dict V -> res pystr) (fs : files) (d : pystr) (x : data) : @gtable V :=
  let read strict log := iter_file sc expand lim (da_dialect x) (da_lang x) strict log (da_cols x) fs (in_dir d (da_name x)) in
  {| g_name := da_name x; g_cols := da_cols x; g_pk := da_pk x; g_fkeys := da_fks x; g_iter := read true; g_lax := read false false |}.
End Spec.
