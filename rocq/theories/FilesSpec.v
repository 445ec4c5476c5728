(** What C55 says of the files of a table group. *)
From Verif Require Import PyStr PyCsv Dsv DsvSpec Json Column Schema Table TableSpec TableProofs5 Zip ZipSpec Files.

(** ** Paths *)
(** the name of a file or directory *)
Definition component (c : pystr) : Prop := c <> [] /\ c <> lit "." /\ c <> lit ".." /\ ~ In 47 c.
(** a directory: absolute or relative *)
Definition plain_dir (d : pystr) : Prop :=
  exists l, Forall component l /\ (d = lit "/" ++ join (lit "/") l \/ d = match l with [] => lit "." | _ => join (lit "/") l end).
(** a relative path: one or more names *)
Definition plain_path (u : pystr) : Prop := exists l, l <> [] /\ Forall component l /\ u = join (lit "/") l.
(** the path u in directory d *)
Definition in_dir (d u : pystr) : pystr :=
  if str_eqb d (lit ".") then u else if str_eqb d (lit "/") then lit "/" ++ u else d ++ lit "/" ++ u.

Section Spec.
Context {V : Type} (sc : scalars V) (expand : pystr -> dict V -> res pystr).
Variables (env : fenv) (pv : pyver) (lim : N).

(** a file can be made here: its directory exists, and it is no directory itself *)
Definition can_create (p : pystr) : Prop :=
  exists d n, plain_dir d /\ component n /\ p = in_dir d n /\ fe_isdir env d = true /\ fe_isdir env p = false.
(** the table that a name stands for: the last one with this url *)
Definition named (g : fgroup V) (n : pystr) (t : ftable V) : Prop :=
  exists pre post, gr_tables g = pre ++ t :: post /\ t_url t = n /\ (forall t', In t' post -> t_url t' <> n).
(** the dialect of a table: its own, the group's or the default *)
Definition has_dialect (g : fgroup V) (t : ftable V) (d : dialect) : Prop :=
  t_dialect t = Some d \/ (t_dialect t = None /\ (gr_dialect g = Some d \/ (gr_dialect g = None /\ d = meta_dialect))).
(** the data of a table is at path p: as a text file, or zipped *)
Definition stored (zipped : bool) (fs : files) (p name text : pystr) : Prop :=
  if zipped then fs p = None /\ fs (p ++ lit ".zip") = Some (Archive [(name, text)]) else fs p = Some (Plain text).
(** the files that are written for the tables n1, n2, ... *)
Definition data_files (zipped : bool) (d : pystr) (names : list pystr) : list pystr :=
  map (in_dir d) names ++ if zipped then map (fun n => in_dir d n ++ lit ".zip") names else [].
(** the text that Table.write makes of the rows *)
Definition text_of (strict : bool) (g : fgroup V) (t : ftable V) (rows : list (item V)) (text : pystr) : Prop :=
  exists d before k, has_dialect g t d /\ table_write sc pv lim d strict (t_cols t) before rows = (Some text, Ok k).

(** rows that survive writing and reading, as in C27 (and C52 if zipped) *)
Definition storable (zipped : bool) (d : dialect) (cols : list (tcol V)) (items : list (dict V)) : Prop :=
  (exists dl q term, sane_dialect d dl q term /\ (quote_crlf pv = true \/ term = [CR; LF])) /\
  d_doubleQuote d = true /\ d_skipInitialSpace d = false /\ keeps_everything d /\ (zipped = true -> d_encoding d <> lit "UTF-8-BOM") /\
  regular_first cols /\ distinct_headers cols /\ (forall c, In c cols -> tc_virtual c = true -> tc_required c = false) /\
  (forall kvs, In kvs items -> complete_item cols kvs) /\
  (forall kvs c v, In kvs items -> In c cols -> tc_virtual c = false -> dget str_eqb kvs (tc_header c) = Some v -> survives sc c v) /\
  (forall rows, Forall2 (row_of sc cols) (map IDict items) rows ->
     cells_within lim (texts (header_rows d cols ++ rows)) /\ bom_safe d (header_rows d cols ++ rows) /\ (zipped = true -> no_cr (texts (header_rows d cols ++ rows)))).
(** a row that was read has the values of the row that was written *)
Definition same_values (cols : list (tcol V)) (y kvs : dict V) : Prop :=
  (forall c, In c cols -> tc_virtual c = false -> dget str_eqb y (tc_header c) = dget str_eqb kvs (tc_header c)) /\
  ((forall c, In c cols -> tc_virtual c = false) -> same_mapping y kvs /\ map fst y = map tc_header cols).
(** same description: what fromvalue(asdict(g)) gives, see C35 *)
Definition same_description (g g' : fgroup V) : Prop :=
  gr_tables g' = gr_tables g /\ gr_dialect g' = gr_dialect g /\ gr_base g' = gr_base g /\ gr_ctx g' = gr_ctx g /\ gr_doc g' = gr_doc g.
End Spec.
(** the tables' urls are relative paths *)
Definition plain_group {V} (g : fgroup V) : Prop := forall t, In t (gr_tables g) -> plain_path (t_url t).
(** no two tables and no table and the metadata file m share a file *)
Definition no_clash (zipped : bool) (m : pystr) (names : list pystr) : Prop :=
  NoDup names /\ ~ In m names /\ (zipped = true -> forall n, In n names -> ~ In (n ++ lit ".zip") (m :: names)).
