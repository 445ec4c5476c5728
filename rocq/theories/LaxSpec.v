(** What a lenient reading (strict=False) makes of a file (C61).  cell_reads: ColumnSpec.v, required_given: QuietSpec.v. *)
From Verif Require Import PyStr PyCsv Dsv DsvSpec Dec Json NatLang Column ColumnSpec Schema Table TableSpec QuietSpec.

(** the name of the n-th column if it has none *)
Definition number_name (n : nat) : pystr := lit "_col." ++ digits_of (N.of_nat n).
Section Spec.
Context {V : Type} (sc : scalars V) (expand : pystr -> dict V -> res pystr).
(** the cell is required, and missing *)
Definition lacking (st : @settings V) (text : pystr) : Prop := exists s, with_default st text s /\ st_required st = true /\ In s (st_null st).
(** one part of a list that cannot be read: the text, or None *)
Inductive part_kept (st : @settings V) : pystr -> option V -> Prop :=
| pk_null s : In s (st_null st) -> part_kept st s None
| pk_text s : ~ In s (st_null st) -> part_kept st s (Some (s_str sc s)).
(** the value of a cell: what it says if it is valid.  Otherwise, the text (not the default); for lists, the list of the texts *)
Inductive lenient (st : @settings V) (text : pystr) : pyval V -> Prop :=
| le_valid x : cell_reads sc st text (Ok x) -> lenient st text x
| le_text : cell_reads sc st text (Err ValueError) -> st_separator st = None \/ lacking st text -> lenient st text (POne (s_str sc text))
| le_list s sep parts parts' vals : cell_reads sc st text (Err ValueError) -> ~ lacking st text -> st_separator st = Some sep ->
    with_default st text s -> parts_of sep s parts -> Forall2 (with_default st) parts parts' -> Forall2 (part_kept st) parts' vals -> lenient st text (PList vals).
(** the keys of the cells: the columns, then numbers *)
Definition cell_keys (cols : list (tcol V)) (n : nat) : list pystr :=
  firstn n (map tc_header cols) ++ map (fun i => number_name (S i)) (seq (length cols) (n - length cols)).
(** cells beyond the columns: None or text *)
Definition untyped (text : pystr) : pyval V := match text with [] => PNone | _ => POne (s_str sc text) end.
Definition cell_lenient (cols : list (tcol V)) (j : nat) (text : pystr) (x : pyval V) : Prop :=
  match nth_error cols j with Some c => lenient (tc_st c) text x | None => x = untyped text end.
(** the virtual columns that have a template *)
Definition templates (cols : list (tcol V)) (vs : list (pystr * pystr)) : Prop :=
  exists l, Selected (fun c => tc_virtual c = true /\ de_valueUrl (c_desc (tc_col c)) <> None) cols l
  /\ Forall2 (fun c kv => fst kv = tc_header c /\ de_valueUrl (c_desc (tc_col c)) = Some (snd kv)) l vs.
(** the dict of a row, under n headers: the cells in order, None for the other regular columns, and the virtual columns,
    each computed from what precedes it *)
Definition row_lenient (cols : list (tcol V)) (n : nat) (row : list pystr) (d : dict V) : Prop :=
  exists cells rest virt vs, d = cells ++ rest ++ virt
  /\ map fst cells = firstn (length row) (cell_keys cols n)
  /\ (forall j kx text, nth_error cells j = Some kx -> nth_error row j = Some text -> cell_lenient cols j text (snd kx))
  /\ Selected (fun kx => ~ In (fst kx) (map fst cells)) (map (fun c => (tc_header c, PNone)) (filter (fun c => negb (tc_virtual c)) cols)) rest
  /\ templates cols vs /\ map fst virt = map fst vs
  /\ forall before k x after u, virt = before ++ (k, x) :: after -> nth_error vs (length before) = Some (k, u) ->
       exists s, expand u (cells ++ rest ++ before) = Ok s /\ x = POne (s_str sc s).
(** nothing required is missing in a row *)
Definition row_complete (cols : list (tcol V)) (hdr row : list pystr) : Prop :=
  forall j h c, nth_error hdr j = Some h -> nth_error cols j = Some c -> tc_required c = true ->
    exists i h' c', (i < length row)%nat /\ nth_error hdr i = Some h' /\ nth_error cols i = Some c' /\ (h' = h \/ tc_header c' = h).
(** cells fail with ValueError only *)
Definition fails_well (cols : list (tcol V)) (row : list pystr) : Prop :=
  forall j c text e, nth_error cols j = Some c -> nth_error row j = Some text -> cell_reads sc (tc_st c) text (Err e) -> e = ValueError.
(** without columns: the texts under the headers of the file *)
Definition row_plain (hdr row : list pystr) (d : dict V) : Prop :=
  map fst d = firstn (length row) hdr /\ forall j kx text, nth_error d j = Some kx -> nth_error row j = Some text -> snd kx = POne (s_str sc text).
(** without columns and header: as many as n numbered cells *)
Definition row_numbered (n : nat) (row : list pystr) (d : dict V) : Prop :=
  map fst d = map number_name (seq 1 (Nat.min n (length row))) /\ forall j kx text, nth_error d j = Some kx -> nth_error row j = Some text -> snd kx = untyped text.
(** n: the number of cells of the first row that has cells *)
Definition width (rows : list (list pystr)) (n : nat) : Prop :=
  (n = 0%nat /\ forall row, In row rows -> row = []) \/ exists before row after, rows = before ++ row :: after /\ (forall r, In r before -> r = []) /\ row <> [] /\ n = length row.
End Spec.
