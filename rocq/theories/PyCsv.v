(** CPython's [_csv] module (stdlib, Modules/_csv.c) and the line iteration of
    [io.TextIOWrapper] opened with [newline='']: what csvw's readers and writers
    delegate to (/repo/src/csvw/dsv.py:104 csv.writer, :196 csv.reader,
    :188 io.open(newline='')).  Trusted translation of the C code, checked
    against the local interpreters' csv module on random inputs. *)
From Verif Require Import PyStr.

(** Behaviour differences between CPython releases that matter for csvw. *)
Record pyver := {
  esc_esc : bool;      (* csv.writer escapes the escapechar itself (>= 3.10) *)
  quote_crlf : bool;   (* csv.writer quotes CR and LF whatever the lineterminator *)
  quote_se : bool;     (* csv.writer quotes empty fields if delimiter = ' ' and skipinitialspace *)
}.
Definition py_modern : pyver := {| esc_esc := true; quote_crlf := true; quote_se := true |}.
Definition py_old : pyver := {| esc_esc := false; quote_crlf := false; quote_se := false |}.

Inductive quoting := QMinimal | QAll | QNone.

(** csv.Dialect after validation. QUOTE_NONNUMERIC and later modes are not modelled. *)
Record fmt := {
  delim : N;
  quotechar : option N;
  escapechar : option N;
  doublequote : bool;
  skipinitialspace : bool;
  lineterm : pystr;
  quotemode : quoting;
  strict : bool;
  limit : N;           (* csv.field_size_limit(), 131072 by default *)
}.

Definition is_oc (o : option N) (c : N) : bool :=
  match o with Some x => c =? x | None => false end.

(** ** Writer: join_append_data / csv_writerow *)

(** the characters that make the writer quote or escape *)
Definition special (pv : pyver) (f : fmt) (c : N) : bool :=
  (c =? delim f) || is_oc (escapechar f) c || is_oc (quotechar f) c
  || char_mem c (lineterm f) || (quote_crlf pv && ((c =? CR) || (c =? LF))).

(** text for one character and whether it forces quoting *)
Definition wchar (pv : pyver) (f : fmt) (c : N) : res (pystr * bool) :=
  let escaped := match escapechar f with
                 | Some e => Ok ([e; c], false)
                 | None => Err CsvError      (* need to escape, but no escapechar set *)
                 end in
  if special pv f c then
    match quotemode f with
    | QNone => escaped
    | _ => if is_oc (quotechar f) c
           then if doublequote f then Ok ([c; c], true) else escaped
           else if is_oc (escapechar f) c && esc_esc pv then escaped
           else Ok ([c], true)
    end
  else Ok ([c], false).

Fixpoint wbody (pv : pyver) (f : fmt) (s : pystr) : res (pystr * bool) :=
  match s with
  | [] => Ok ([], false)
  | c :: s' =>
      a <- wchar pv f c ;;
      b <- wbody pv f s' ;;
      Ok (fst a ++ fst b, snd a || snd b)
  end.

Definition wrap_quotes (f : fmt) (s : pystr) : pystr :=
  match quotechar f with Some q => q :: s ++ [q] | None => s end.

(** one field: [forced] is join_append's [quoted] argument *)
Definition wfield (pv : pyver) (f : fmt) (forced : bool) (s : pystr) : res pystr :=
  b <- wbody pv f s ;;
  let se := quote_se pv && (delim f =? SPACE) && skipinitialspace f
            && match s with [] => true | _ => false end in
  match quotemode f with
  | QNone => if se then Err CsvError else Ok (fst b)
  | QAll => Ok (wrap_quotes f (fst b))
  | QMinimal => Ok (if forced || se || snd b then wrap_quotes f (fst b) else fst b)
  end.

Fixpoint wjoin (d : N) (l : list pystr) : pystr :=
  match l with
  | [] => []
  | [a] => a
  | a :: l' => a ++ d :: wjoin d l'
  end.

(** csv.writer.writerow, on fields already converted to str *)
Definition wrow (pv : pyver) (f : fmt) (row : list pystr) : res pystr :=
  parts <- mapM (wfield pv f false) row ;;
  let text := wjoin (delim f) parts in
  match row, text with
  | _ :: _, [] =>      (* num_fields > 0 && rec_len == 0 : a single empty field *)
      match quotemode f with
      | QNone => Err CsvError     (* single empty field record must be quoted *)
      | _ => t <- wfield pv f true [] ;; Ok (t ++ lineterm f)
      end
  | _, _ => Ok (text ++ lineterm f)
  end.

Fixpoint wrows (pv : pyver) (f : fmt) (rows : list (list pystr)) : res pystr :=
  match rows with
  | [] => Ok []
  | r :: rows' => a <- wrow pv f r ;; b <- wrows pv f rows' ;; Ok (a ++ b)
  end.

(** ** Lines of a text file opened with newline='' *)
Fixpoint lines_aux (cur t : pystr) : list pystr :=
  match t with
  | [] => match cur with [] => [] | _ => [cur] end
  | c :: t' =>
      if c =? LF then (cur ++ [c]) :: lines_aux [] t'
      else if c =? CR then
        match t' with
        | c2 :: t'' => if c2 =? LF then (cur ++ [c; c2]) :: lines_aux [] t''
                       else (cur ++ [c]) :: lines_aux [] t'
        | [] => [cur ++ [c]]
        end
      else lines_aux (cur ++ [c]) t'
  end.
Definition lines (t : pystr) : list pystr := lines_aux [] t.

(** ** Reader: parse_process_char *)
Inductive rstate :=
| START_RECORD | START_FIELD | ESCAPED_CHAR | AFTER_ESCAPED_CRNL | IN_FIELD
| IN_QUOTED_FIELD | ESCAPE_IN_QUOTED_FIELD | QUOTE_IN_QUOTED_FIELD | EAT_CRNL.

Inductive tok := TC (c : N) | EOL.

Record pst := { rst : rstate; field : pystr; fields : list pystr }.
Definition p0 : pst := {| rst := START_RECORD; field := []; fields := [] |}.

Definition save_field (p : pst) (s : rstate) : res pst :=
  Ok {| rst := s; field := []; fields := fields p ++ [field p] |}.
Definition add_char (f : fmt) (p : pst) (c : N) (s : rstate) : res pst :=
  if N.of_nat (length (field p)) <? limit f
  then Ok {| rst := s; field := field p ++ [c]; fields := fields p |}
  else Err CsvError.
Definition goto (p : pst) (s : rstate) : res pst :=
  Ok {| rst := s; field := field p; fields := fields p |}.

Definition is_nl (c : N) : bool := (c =? LF) || (c =? CR).
Definition quotes_on (f : fmt) : bool := match quotemode f with QNone => false | _ => true end.

Definition do_start_field (f : fmt) (p : pst) (t : tok) : res pst :=
  match t with
  | EOL => save_field p START_RECORD
  | TC c =>
      if is_nl c then save_field p EAT_CRNL
      else if is_oc (quotechar f) c && quotes_on f then goto p IN_QUOTED_FIELD
      else if is_oc (escapechar f) c then goto p ESCAPED_CHAR
      else if (c =? SPACE) && skipinitialspace f then goto p START_FIELD
      else if c =? delim f then save_field p START_FIELD
      else add_char f p c IN_FIELD
  end.

Definition do_in_field (f : fmt) (p : pst) (t : tok) : res pst :=
  match t with
  | EOL => save_field p START_RECORD
  | TC c =>
      if is_nl c then save_field p EAT_CRNL
      else if is_oc (escapechar f) c then goto p ESCAPED_CHAR
      else if c =? delim f then save_field p START_FIELD
      else add_char f p c (rst p)   (* the state is left alone: AFTER_ESCAPED_CRNL persists *)
  end.

Definition step (f : fmt) (p : pst) (t : tok) : res pst :=
  match rst p with
  | START_RECORD =>
      match t with
      | EOL => Ok p
      | TC c => if is_nl c then goto p EAT_CRNL else do_start_field f p t
      end
  | START_FIELD => do_start_field f p t
  | ESCAPED_CHAR =>
      match t with
      | TC c => if is_nl c then add_char f p c AFTER_ESCAPED_CRNL else add_char f p c IN_FIELD
      | EOL => add_char f p LF IN_FIELD
      end
  | AFTER_ESCAPED_CRNL =>
      match t with EOL => Ok p | _ => do_in_field f p t end
  | IN_FIELD => do_in_field f p t
  | IN_QUOTED_FIELD =>
      match t with
      | EOL => Ok p
      | TC c =>
          if is_oc (escapechar f) c then goto p ESCAPE_IN_QUOTED_FIELD
          else if is_oc (quotechar f) c && quotes_on f
               then if doublequote f then goto p QUOTE_IN_QUOTED_FIELD else goto p IN_FIELD
          else add_char f p c IN_QUOTED_FIELD
      end
  | ESCAPE_IN_QUOTED_FIELD =>
      match t with
      | TC c => add_char f p c IN_QUOTED_FIELD
      | EOL => add_char f p LF IN_QUOTED_FIELD
      end
  | QUOTE_IN_QUOTED_FIELD =>
      match t with
      | EOL => save_field p START_RECORD
      | TC c =>
          if quotes_on f && is_oc (quotechar f) c then add_char f p c IN_QUOTED_FIELD
          else if c =? delim f then save_field p START_FIELD
          else if is_nl c then save_field p EAT_CRNL
          else if strict f then Err CsvError
          else add_char f p c IN_FIELD
      end
  | EAT_CRNL =>
      match t with
      | EOL => goto p START_RECORD
      | TC c => if is_nl c then Ok p else Err CsvError
      end
  end.

Fixpoint steps (f : fmt) (p : pst) (ts : list tok) : res pst :=
  match ts with
  | [] => Ok p
  | t :: ts' => p' <- step f p t ;; steps f p' ts'
  end.

(** What iterating a reader to the end gives: the items and how it ended
    ([None] = StopIteration, i.e. normal end). *)
Definition stream (A : Type) := (list A * option exn)%type.

(** Reader_iternext, iterated over the remaining lines.  [p] is the parser
    state carried over from the lines already consumed for the current record. *)
Fixpoint read_lines (f : fmt) (p : pst) (ls : list pystr) : stream (list pystr) :=
  match ls with
  | [] =>
      if negb (match field p with [] => true | _ => false end)
         || match rst p with IN_QUOTED_FIELD => true | _ => false end
      then if strict f then ([], Some CsvError)        (* unexpected end of data *)
           else ([fields p ++ [field p]], None)
      else ([], None)
  | l :: ls' =>
      match steps f p (map TC l ++ [EOL]) with
      | Err e => ([], Some e)
      | Ok p' =>
          match rst p' with
          | START_RECORD => let r := read_lines f p0 ls' in (fields p' :: fst r, snd r)
          | _ => read_lines f p' ls'
          end
      end
  end.

(** list(csv.reader(lines, **fmt)) *)
Definition csv_read_lines (f : fmt) (ls : list pystr) : stream (list pystr) := read_lines f p0 ls.
(** list(csv.reader(open(path, newline=''), **fmt)) on decoded text *)
Definition csv_read (f : fmt) (t : pystr) : stream (list pystr) := csv_read_lines f (lines t).
