(** Specifications for C27-C32. *)
From Verif Require Import PyStr PyCsv Dsv DsvSpec Column Schema Table.
From Coq Require Export Permutation.

Section Spec.
Context {V : Type} (sc : scalars V).

(** ** Dicts *)
Definition same_mapping (d d' : dict V) : Prop := forall k, dget str_eqb d k = dget str_eqb d' k.
Definition has_key (d : dict V) (k : pystr) : Prop := dget str_eqb d k <> None.

(** ** Cells of a row and the columns they belong to (C28) *)
(** the cell in column j cannot be read *)
Definition cell_error (hc : list (pystr * option (tcol V))) (row : list pystr) (j : nat) : Prop :=
  exists k c v, nth_error hc j = Some (k, Some c) /\ nth_error row j = Some v
                /\ fst (col_read sc true (tc_st c) v) = Err ValueError.
(** there is no cell for the required column j *)
Definition cell_missing (hc : list (pystr * option (tcol V))) (row : list pystr) (j : nat) : Prop :=
  exists k c, nth_error hc j = Some (k, Some c) /\ tc_required c = true /\ (length row <= j)%nat.
Definition row_good (hc : list (pystr * option (tcol V))) (row : list pystr) : Prop :=
  forall j, ~ cell_error hc row j /\ ~ cell_missing hc row j.
(** the messages for a row: unreadable cells from left to right, then missing cells *)
Definition row_messages (hc : list (pystr * option (tcol V))) (line : nat) (row : list pystr) (ms : list lmsg) : Prop :=
  exists bad missing,
    Selected (cell_error hc row) (seq 0 (length hc)) bad
    /\ Selected (cell_missing hc row) (seq 0 (length hc)) missing
    /\ ms = map (fun j => BadCell line (S j) (nth j (map fst hc) [])) bad
            ++ map (fun j => MissingCell line (S j) (nth j (map fst hc) [])) missing.
(** reading cells fails with ValueError only *)
Definition only_value_errors (hc : list (pystr * option (tcol V))) (row : list pystr) : Prop :=
  forall j k c v e, nth_error hc j = Some (k, Some c) -> nth_error row j = Some v ->
    fst (col_read sc true (tc_st c) v) = Err e -> e = ValueError.
(** the dict for a row that can be read *)
Definition row_reads (cols : list (tcol V)) (hc : list (pystr * option (tcol V))) (row : list pystr) (d : dict V) : Prop :=
  (forall j k c v, nth_error hc j = Some (k, Some c) -> nth_error row j = Some v ->
     ~ In (tc_header c) (map fst (virtualcols cols)) ->
     exists x, fst (col_read sc true (tc_st c) v) = Ok x /\ dget str_eqb d (tc_header c) = Some x)
  /\ (forall j k v, nth_error hc j = Some (k, None) -> nth_error row j = Some v ->
     ~ In k (map fst (virtualcols cols)) -> dget str_eqb d k = Some (POne (s_str sc v)))
  /\ (forall c, In c cols -> tc_virtual c = false -> ~ In (tc_header c) (map fst (virtualcols cols)) ->
     (forall j k c', nth_error hc j = Some (k, Some c') -> (j < length row)%nat -> tc_header c' <> tc_header c) ->
     (forall j k, nth_error hc j = Some (k, None) -> (j < length row)%nat -> k <> tc_header c) ->
     dget str_eqb d (tc_header c) = Some PNone).

(** URI templates expand without error, looking only at the mapping *)
Definition expands (expand : pystr -> dict V -> res pystr) : Prop :=
  (forall u d, exists s, expand u d = Ok s) /\ (forall u d d', same_mapping d d' -> expand u d = expand u d').

(** ** Header names (C29, C30) *)
Definition distinct_headers (cols : list (tcol V)) : Prop := NoDup (map tc_header cols).
(** the name in the file refers to the column: its header, first title or propertyUrl *)
Definition refers (c : tcol V) (h : pystr) : Prop :=
  h = tc_header c \/ first_title (tc_col c) = Ok (Some h) \/ de_propertyUrl (c_desc (tc_col c)) = Some h.
Definition titles_readable (cols : list (tcol V)) : Prop :=
  forall c, In c cols -> exists t, first_title (tc_col c) = Ok t.
(** hc: the columns the names of the file belong to.  A header takes precedence over titles and propertyUrls. *)
Definition matched (cols : list (tcol V)) (hdr : list pystr) (hc : list (pystr * option (tcol V))) : Prop :=
  map fst hc = hdr
  /\ (forall h c, In (h, Some c) hc -> In c cols /\ refers c h /\ (In h (map tc_header cols) -> tc_header c = h))
  /\ (forall h, In (h, None) hc -> forall c, In c cols -> ~ refers c h).
(** no name and no column twice *)
Definition each_once (hc : list (pystr * option (tcol V))) : Prop :=
  NoDup (map fst hc) /\ forall i j k k' c c', nth_error hc i = Some (k, Some c) -> nth_error hc j = Some (k', Some c') ->
    tc_header c = tc_header c' -> i = j.
(** no required column is missing *)
Definition required_present (cols : list (tcol V)) (hc : list (pystr * option (tcol V))) : Prop :=
  forall c, In c cols -> tc_required c = true -> exists h c', In (h, Some c') hc /\ tc_header c' = tc_header c.
Definition regular_first (cols : list (tcol V)) : Prop :=
  exists n, (forall c, In c (firstn n cols) -> tc_virtual c = false) /\ (forall c, In c (skipn n cols) -> tc_virtual c = true).
(** row' has the cells of row under the header names in another order *)
Definition permuted (hdr hdr' : list pystr) (lr lr' : nat * list pystr) : Prop :=
  fst lr = fst lr' /\ length (snd lr) = length hdr /\ length (snd lr') = length hdr'
  /\ Permutation (combine hdr (snd lr)) (combine hdr' (snd lr')).

(** ** Writing (C27, C31) *)
Definition item_value (it : item V) (i : nat) (c : tcol V) (v : pyval V) : Prop :=
  match it with
  | IDict kvs => v = match dget str_eqb kvs (tc_header c) with Some x => x | None => PNone end
  | IList vs => nth_error vs i = Some v
  end.
(** one cell per regular column *)
Definition row_of (cols : list (tcol V)) (it : item V) (cells : list cell) : Prop :=
  length cells = length (regular cols) /\
  forall i c, nth_error (regular cols) i = Some c ->
    exists v x, item_value it i c v /\ col_write sc (tc_st c) v = Ok x /\ nth_error cells i = Some x.
Definition unknown_field (cols : list (tcol V)) (it : item V) : Prop :=
  match it with
  | IDict kvs => exists k v, In (k, v) kvs /\ forall c, In c cols -> tc_virtual c = false -> tc_header c <> k
  | IList _ => False
  end.
(** a value survives its column *)
Definition survives (c : tcol V) (v : pyval V) : Prop :=
  exists x, col_write sc (tc_st c) v = Ok x /\ fst (col_read sc true (tc_st c) (cell_text x)) = Ok v.
(** a dict with a value for each regular column and nothing else *)
Definition complete_item (cols : list (tcol V)) (kvs : dict V) : Prop :=
  NoDup (map fst kvs) /\ forall k, In k (map fst kvs) <-> exists c, In c cols /\ tc_virtual c = false /\ tc_header c = k.

(** ** Keys (C32) *)
Definition has_keys (pk : list pystr) (d : dict V) (key : list (pyval V)) : Prop :=
  Forall2 (fun k v => dget str_eqb d k = Some v) pk key.
Definition no_lists (key : list (pyval V)) : Prop := forall l, ~ In (PList l) key.
Definition equivalence (veq : V -> V -> bool) : Prop :=
  (forall a, veq a a = true) /\ (forall a b, veq a b = true -> veq b a = true)
  /\ (forall a b c, veq a b = true -> veq b c = true -> veq a c = true).
(** equal values: None, or equal scalars *)
Definition same_value (veq : V -> V -> bool) (a b : pyval V) : Prop :=
  match a, b with PNone, PNone => True | POne x, POne y => veq x y = true | _, _ => False end.
Definition same_key (veq : V -> V -> bool) : list (pyval V) -> list (pyval V) -> Prop := Forall2 (same_value veq).
(** the i-th key occurs before *)
Definition repeated (veq : V -> V -> bool) (keys : list (list (pyval V))) (i : nat) : Prop :=
  exists i' k k', (i' < i)%nat /\ nth_error keys i = Some k /\ nth_error keys i' = Some k' /\ same_key veq k k'.
End Spec.

(** the header and the data rows of a file: the first row is the header, if the dialect says so *)
Definition header_and_data {V} (d : dialect) (cols : list (tcol V)) (rows : list (nat * list pystr))
  (hdr : list pystr) (data : list (nat * list pystr)) : Prop :=
  if d_header d then exists line, rows = (line, hdr) :: data else hdr = map tc_header (filter (fun c => negb (tc_virtual c)) cols) /\ data = rows.
