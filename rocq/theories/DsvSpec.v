(** Small specifications used by the property theorems about dsv.py.
    Nothing here refers to how readers and writers work. *)
From Verif Require Import PyStr PyCsv Dsv.

(** ** Dialects that can round-trip *)
Definition ascii_quote : pystr := [34].
Definition standard_terminator (t : pystr) : Prop := t = [CR; LF] \/ t = [LF] \/ t = [CR].
Definition no_linebreak_char (c : N) : Prop := c <> CR /\ c <> LF.

(** A dialect with one-character, distinct delimiter and quoteChar (no line
    breaks, no byte order mark, no blank if initial blanks are skipped) and a
    standard first line terminator. *)
Record sane_dialect (d : dialect) (delimiter quote : N) (term : pystr) : Prop := {
  sd_delim : d_delimiter d = [delimiter];
  sd_quote : d_quoteChar d = Some [quote];
  sd_term : exists more, d_lineTerminators d = term :: more;
  sd_std : standard_terminator term;
  sd_distinct : delimiter <> quote;
  sd_nl1 : no_linebreak_char delimiter;
  sd_nl2 : no_linebreak_char quote;
  sd_bom : delimiter <> BOM /\ quote <> BOM;
  sd_skip : d_skipInitialSpace d = true -> delimiter <> SPACE /\ quote <> SPACE;
}.

(** the first cell of the first row does not start with U+FEFF *)
Definition no_leading_bom (rows : list (list pystr)) : Prop :=
  match rows with
  | ((c :: _) :: _) :: _ => c <> BOM
  | _ => True
  end.
Definition cells_within (n : N) (rows : list (list pystr)) : Prop :=
  forall row s, In row rows -> In s row -> N.of_nat (length s) <= n.

(** text of a list of cells as Python would convert it *)
Definition cell_text (c : cell) : pystr :=
  match c with CStr s => s | CNone => [] | COther s => s end.
Definition texts (rows : list (list cell)) : list (list pystr) := map (map cell_text) rows.

(** Write rows to a fresh file: the resulting file content. *)
Definition write_file (pv : pyver) (lim : N) (d : option dialect) (kw : csv_kw)
  (rows : list (list cell)) : res pystr :=
  match writer_open lim d kw with
  | Err e => Err e
  | Ok w => match writerows pv w (map RList rows) with
            | (w', None) => Ok (file_text d (w_out w'))
            | (_, Some e) => Err e
            end
  end.

(** ** What a dialect-driven reader should yield (C04) *)
Definition newlines_in (row : list pystr) : nat :=
  length (filter (N.eqb LF) (concat row)).

(** rows paired with the 0-based number of the line on which they end, if each
    row takes one line plus one for every line feed inside its cells *)
Fixpoint number_rows (first_line : nat) (rows : list (list pystr)) : list (nat * list pystr) :=
  match rows with
  | [] => []
  | r :: rs => let last := (first_line + newlines_in r)%nat in (last, r) :: number_rows (S last) rs
  end.

Definition comment_row (d : dialect) (r : list pystr) : Prop :=
  exists prefix c cs, d_commentPrefix d = Some prefix /\ prefix <> [] /\ r = c :: cs
                      /\ exists tail, c = prefix ++ tail.
Definition blank_row (r : list pystr) : Prop := forall c, In c r -> c = [].
Definition row_is_dropped (d : dialect) (lr : nat * list pystr) : Prop :=
  comment_row d (snd lr) \/ (blank_row (snd lr) /\ d_skipBlankRows d = true)
  \/ (fst lr < d_skipRows d)%nat.
Definition row_is_recorded (d : dialect) (lr : nat * list pystr) : Prop :=
  comment_row d (snd lr) \/ (snd lr <> [] /\ (fst lr < d_skipRows d)%nat).

(** [Selected P l l']: [l'] consists of the elements of [l] satisfying [P], in order *)
Inductive Selected {A} (P : A -> Prop) : list A -> list A -> Prop :=
| Sel_nil : Selected P [] []
| Sel_in x l l' : P x -> Selected P l l' -> Selected P (x :: l) (x :: l')
| Sel_out x l l' : ~ P x -> Selected P l l' -> Selected P (x :: l) l'.

Definition trimmed (m : trimmode) (s : pystr) : pystr :=
  match m with
  | TrimTrue => strip s | TrimFalse => s | TrimStart => lstrip s | TrimEnd => rstrip s
  end.
(** the row handed out for a kept row *)
Definition presented (d : dialect) (r : list pystr) : list pystr :=
  skipn (d_skipColumns d) (map (trimmed (d_trim d)) r).

(** the text recorded for a skipped row: its cells joined with the delimiter,
    without the leading characters of the comment prefix (blanks if there is no
    prefix) and without surrounding blanks *)
Definition prefix_char (d : dialect) (c : N) : Prop :=
  match d_commentPrefix d with None => is_space c = true | Some p => In c p end.
Definition recorded_text (d : dialect) (row : list pystr) (txt : pystr) : Prop :=
  exists pre mid, join (d_delimiter d) row = pre ++ mid
    /\ (forall c, In c pre -> prefix_char d c)
    /\ (forall c mid', mid = c :: mid' -> ~ prefix_char d c)
    /\ txt = strip mid.

(** a dialect that drops nothing *)
Definition keeps_everything (d : dialect) : Prop :=
  d_commentPrefix d = None /\ d_skipBlankRows d = false /\ d_skipRows d = 0%nat
  /\ d_skipColumns d = 0%nat /\ d_trim d = TrimFalse.

(** ** Line numbers (C05) *)
(** csv.reader, noting for every row the 1-based number of the text line on
    which the row ends: [k] = lines consumed so far, [lf] = the last of them
    ended in LF (so that the end of the text is on the next line) *)
Fixpoint read_lines_num (f : fmt) (p : pst) (k : nat) (lf : bool) (ls : list pystr)
  : list (nat * list pystr) :=
  match ls with
  | [] => if (negb (match field p with [] => true | _ => false end)
             || match rst p with IN_QUOTED_FIELD => true | _ => false end) && negb (strict f)
          then [(if lf then S k else k, fields p ++ [field p])] else []
  | l :: ls' =>
      match steps f p (map TC l ++ [EOL]) with
      | Err _ => []
      | Ok p' => match rst p' with
                 | START_RECORD => (S k, fields p') :: read_lines_num f p0 (S k) (endswith [LF] l) ls'
                 | _ => read_lines_num f p' (S k) (endswith [LF] l) ls'
                 end
      end
  end.
(** every CR in the text is followed by LF *)
Fixpoint only_lf_or_crlf (t : pystr) : bool :=
  match t with
  | [] => true
  | c :: t' => (if c =? CR then match t' with x :: _ => x =? LF | [] => false end else true)
               && only_lf_or_crlf t'
  end.

(** ** Dict rows (C06) *)
(** cells by position, padded with restval *)
Definition padded (fns row : list pystr) (restval : option pystr) : list dval :=
  map DStr row ++ repeat (DVal restval) (length fns - length row).
(** the last value paired with a key *)
Definition last_value (k : pystr) (kvs : list (pystr * pystr)) : option pystr :=
  dget str_eqb (rev kvs) k.

(** ** Writing dicts (C10) *)
Inductive wcall := CallRow (cells : list cell) | CallRows (rows : list wrow_in).
Definition row_values (r : wrow_in) : list cell :=
  match r with RList cs => cs | RDict items => map snd items end.
(** the rows a sequence of calls on a fresh writer is to produce: a header if
    the first row of all is a dict *)
Fixpoint all_rows (calls : list wcall) : list wrow_in :=
  match calls with
  | [] => []
  | CallRow cs :: rest => RList cs :: all_rows rest
  | CallRows rs :: rest => rs ++ all_rows rest
  end.
Definition expected_rows (calls : list wcall) : list (list cell) :=
  let rows := all_rows calls in
  match rows with
  | RDict items :: _ => map (fun kv => CStr (fst kv)) items :: map row_values rows
  | _ => map row_values rows
  end.
(** perform the calls one after the other, stopping at the first exception *)
Fixpoint perform (pv : pyver) (w : wstate) (calls : list wcall) : wstate * option exn :=
  match calls with
  | [] => (w, None)
  | c :: rest =>
      let r := match c with
               | CallRow cs => match writerow pv w cs with Ok w' => (w', None) | Err e => (w, Some e) end
               | CallRows rs => writerows pv w rs
               end in
      match snd r with Some e => (fst r, Some e) | None => perform pv (fst r) rest end
  end.

(** ** rewrite (C07): what a visitor makes of a list of rows *)
Fixpoint visit_all {S} (visitor : S -> nat -> list pystr -> res (S * option (list cell)))
  (v : S) (i : nat) (rows : list (list pystr)) : res (S * list (list cell)) :=
  match rows with
  | [] => Ok (v, [])
  | row :: rest =>
      x <- visitor v i row ;;
      y <- visit_all visitor (fst x) (i + 1) rest ;;
      Ok (fst y, match snd x with Some out => out :: snd y | None => snd y end)
  end.
(** for a function without state that never raises: keep the non-None results *)
Fixpoint visit_pure (f : nat -> list pystr -> option (list cell)) (i : nat) (rows : list (list pystr))
  : list (list cell) :=
  match rows with
  | [] => []
  | row :: rest => match f i row with
                   | Some out => out :: visit_pure f (i + 1) rest
                   | None => visit_pure f (i + 1) rest
                   end
  end.

(** ** add_rows and filter_rows_as_dict (C08, C09) *)
(** the rows [rows] adds after [k] earlier rows: a dict at the very beginning brings its header *)
Definition added (k : nat) (rows : list wrow_in) : list (list cell) :=
  match k with
  | O => expected_rows [CallRows rows]
  | _ => map row_values rows
  end.

(** a history of add_rows calls with lists of strings *)
Fixpoint add_history (pv : pyver) (lim : N) (same : bool) (file : option pystr)
  (calls : list (list (list pystr))) : option pystr :=
  match calls with
  | [] => file
  | rows :: rest =>
      add_history pv lim same
        (main (exec {| main := file; tmp := None |}
                 (fst (add_rows pv lim same file (map RList (map (map CStr) rows)))))) rest
  end.

(** the dict of a row under a header: last occurrence of a key wins *)
Definition row_dict (header row : list pystr) : list (pystr * pystr) := dset_all str_eqb [] (combine header row).

(** what filter_rows_as_dict is to keep / count among the data rows *)
Definition kept_row (f : list (pystr * pystr) -> bool) (header row : list pystr) : Prop :=
  row <> [] /\ f (row_dict header row) = true.
Definition dropped_row (f : list (pystr * pystr) -> bool) (header row : list pystr) : Prop :=
  row <> [] /\ f (row_dict header row) = false.

(** ** Spec pieces for round trips under a dialect (C02, C03) *)
(** how cells come back under skipInitialSpace *)
Definition has_special (dl q : N) (s : pystr) : bool :=
  existsb (fun c => (c =? dl) || (c =? q) || (c =? CR) || (c =? LF)) s.

(** leading blanks vanish from cells that need no quotes *)
Definition skip_back (d : dialect) (dl q : N) (s : pystr) : pystr :=
  if d_skipInitialSpace d && negb (has_special dl q s) then lstrip_by (N.eqb SPACE) s else s.

(** the byte order mark is no issue: not stripped, written by the writer, or no cell starts with it *)
Definition bom_safe (d : dialect) (rows : list (list cell)) : Prop :=
  reader_strips_bom (Some d) = true -> writer_adds_bom (Some d) = false -> no_leading_bom (texts rows).

Definition double_backslashes (s : pystr) : pystr := flat_map (fun c => if c =? 92 then [92; 92] else [c]) s.

Definition esc_text (c : cell) : pystr :=
  match c with CStr s => double_backslashes s | CNone => [] | COther s => s end.
