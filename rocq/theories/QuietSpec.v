(** What validation of a table checks (C60).  cell_reads: ColumnSpec.v. *)
From Verif Require Import PyStr Dsv Json NatLang Column ColumnSpec Schema Table TableSpec.

(** the part of a language tag before the first hyphen *)
Definition primary (tag p : pystr) : Prop := ~ In 45 p /\ (tag = p \/ exists rest, tag = p ++ lit "-" ++ rest).
(** titles without language, or in language und, fit any table; others have to be in the language of the table *)
Definition language_fits (lang : pystr) (tag : option pystr) : Prop :=
  tag = None \/ tag = Some [] \/ exists t p, tag = Some t /\ primary t p /\ (p = lit "und" \/ lang <> [] /\ primary lang p).
(** the titles of the first language that has this title *)
Definition title_in {V} (c : column V) (h : pystr) (tag : option pystr) : Prop :=
  exists nl before ts after, c_titles c = Some nl /\ nl = before ++ (tag, ts) :: after /\ In h ts /\ forall tag' ts', In (tag', ts') before -> ~ In h ts'.
Definition named {V} (c : column V) (n : pystr) : Prop := c_name c = Some n /\ n <> [].
(** h may be the header of column c in the file: the name of c, or a title of c in a language that fits; or c has a name, and no such title *)
Definition header_fits {V} (lang : pystr) (c : column V) (h : pystr) : Prop :=
  named c h \/ (exists tag, title_in c h tag /\ language_fits lang tag) \/ ((exists n, named c n) /\ forall tag, ~ title_in c h tag).

Section Spec.
Context {V : Type} (sc : scalars V).
(** the texts that the datatype gets to read in a cell: all of it, or its parts up to the first that is not valid *)
Inductive text_read (st : settings) (text : pystr) : pystr -> Prop :=
| tr_one s : with_default st text s -> st_separator st = None -> ~ In s (st_null st) -> text_read st text s
| tr_part s sep parts parts' before p after vals : with_default st text s -> st_separator st = Some sep -> s <> [] -> ~ In s (st_null st) ->
    parts_of sep s parts -> Forall2 (with_default st) parts parts' -> parts' = before ++ p :: after ->
    Forall2 (fun q v => value_reads sc st q (Ok v)) before vals -> ~ In p (st_null st) -> text_read st text p.
(** the datatype warns of a text in the cell: INF, -INF or NaN for decimal types, any for malformed formats *)
Definition cell_warned (st : settings) (text : pystr) : Prop := exists t s, st_datatype st = Some t /\ text_read st text s /\ dt_noisy t s = true.
Definition cell_valid (c : tcol V) (text : pystr) : Prop := (exists x, cell_reads sc (tc_st c) text (Ok x)) /\ ~ cell_warned (tc_st c) text.
(** the header row *)
Definition header_valid (lang : pystr) (cols : list (tcol V)) (hdr : list pystr) : Prop :=
  (cols = [] \/ (length hdr <= length cols)%nat)
  /\ forall j h c, nth_error hdr j = Some h -> nth_error cols j = Some c -> header_fits lang (tc_col c) h.
(** all required columns are in the file *)
Definition required_given (cols : list (tcol V)) (hdr : list pystr) : Prop :=
  forall c, In c cols -> tc_required c = true -> exists j c', (j < length hdr)%nat /\ nth_error cols j = Some c' /\ tc_header c' = tc_header c.
(** a row: each cell is valid for the column at its position, and cells of required columns are not missing at the end
    (unless another cell of the row has the same header: i = j is the usual case) *)
Definition row_valid (cols : list (tcol V)) (hdr row : list pystr) : Prop :=
  (forall j c text, (j < length hdr)%nat -> nth_error cols j = Some c -> nth_error row j = Some text -> cell_valid c text)
  /\ (forall j h c, nth_error hdr j = Some h -> nth_error cols j = Some c -> tc_required c = true ->
        exists i h' c', (i < length row)%nat /\ nth_error hdr i = Some h' /\ nth_error cols i = Some c' /\ (h' = h \/ tc_header c' = h)).
Definition data_valid (cols : list (tcol V)) (hdr : list pystr) (data : list (nat * list pystr)) : Prop :=
  required_given cols hdr /\ forall line row, In (line, row) data -> row_valid cols hdr row.
(** rows: what the reader for the dialect yields (C04) *)
Definition content_valid (lang : pystr) (dl : dialect) (cols : list (tcol V)) (rows : list (nat * list pystr)) : Prop :=
  if d_header dl then rows = [] \/ exists line hdr data, rows = (line, hdr) :: data /\ header_valid lang cols hdr /\ data_valid cols hdr data
  else data_valid cols (map tc_header (filter (fun c => negb (tc_virtual c)) cols)) rows.
End Spec.
