(** A specification of the part of SQLite that db.py relies on (external code, https://www.sqlite.org): values, type
    affinity, comparison, tables with constraints, and the statements of Sql.v.  It is what "the database" means in
    C39, C40, C42 and C43.  REAL values are rational numbers; infinities do not occur. *)
From Coq Require Import QArith.
From Verif Require Import PyStr Dec Group Sql.
Open Scope N_scope.

Inductive sval := SNull | SInt (z : Z) | SReal (q : Q) | SText (s : pystr) | SBlob (b : list N).
Definition row := list sval.
(** What depends on the implementation of SQLite:
    the text of a REAL; the number written in a text, if it is one (numeric affinity); a number literal that is not an
    integer of 64 bits; the double nearest to an integer; date() and datetime(); the order in which SELECT
    returns the rows of a table; the order in which an aggregate function sees the rows of a group. *)
Record store_fns := {
  real_text : Q -> pystr;
  text_number : pystr -> option sval;
  literal_real : pystr -> Q;
  int_real : Z -> Q;
  date_fn : pystr -> sval -> sval;
  scan : list row -> list row;
  group_scan : list row -> list row;
}.

(** ** Names: compared without regard to case (of ASCII letters) *)
Definition same_name (a b : pystr) : bool := str_eqb (ascii_lower a) (ascii_lower b).

(** ** Values *)
Definition int64 (z : Z) : bool := (Z.leb (- 2 ^ 63) z && Z.ltb z (2 ^ 63))%bool.
Definition qcmp (a b : Q) : comparison := Qcompare a b.
(** NULL compares as unknown; numbers < texts < blobs (datatype3.html, 4.1) *)
Definition sv_cmp (a b : sval) : option comparison :=
  match a, b with
  | SNull, _ | _, SNull => None
  | SInt x, SInt y => Some (Z.compare x y)
  | SInt x, SReal y => Some (qcmp (inject_Z x) y)
  | SReal x, SInt y => Some (qcmp x (inject_Z y))
  | SReal x, SReal y => Some (qcmp x y)
  | (SInt _ | SReal _), _ => Some Lt
  | _, (SInt _ | SReal _) => Some Gt
  | SText x, SText y => Some (str_cmp x y)
  | SText _, SBlob _ => Some Lt
  | SBlob _, SText _ => Some Gt
  | SBlob x, SBlob y => Some (str_cmp x y)
  end.
Definition sv_eqb (a b : sval) : bool := match sv_cmp a b with Some Eq => true | _ => false end.
Definition is_null (v : sval) : bool := match v with SNull => true | _ => false end.

Section Fns.
Variable S : store_fns.
(** a whole REAL as integer *)
Definition real_int (q : Q) : option Z :=
  let r := Qred q in if Pos.eqb (Qden r) 1 && int64 (Qnum r) then Some (Qnum r) else None.
(** type affinity of columns (datatype3.html, 3) *)
Definition affinity (t : sqltype) (v : sval) : sval :=
  match t, v with
  | _, SNull => SNull
  | _, SBlob b => SBlob b
  | BLOB, _ => v
  | TEXT, SInt z => SText (int_str z)
  | TEXT, SReal q => SText (real_text S q)
  | TEXT, SText s => SText s
  | INTEGER, SInt z => SInt z
  | INTEGER, SReal q => match real_int q with Some z => SInt z | None => SReal q end
  | INTEGER, SText s => match text_number S s with
                        | Some (SReal q) => match real_int q with Some z => SInt z | None => SReal q end
                        | Some n => n
                        | None => SText s
                        end
  | REAL, SInt z => SReal (int_real S z)
  | REAL, SReal q => SReal q
  | REAL, SText s => match text_number S s with Some (SInt z) => SReal (int_real S z) | Some n => n | None => SText s end
  end.

(** ** Expressions of CHECK constraints *)
Definition sv_text (v : sval) : pystr := match v with SInt z => int_str z | SReal q => real_text S q | SText s => s | _ => [] end.
(** characters before a null character *)
Fixpoint before_null (s : pystr) : pystr := match s with [] => [] | 0 :: _ => [] | c :: r => c :: before_null r end.
Definition sv_length (v : sval) : sval :=
  match v with
  | SNull => SNull
  | SText s => SInt (Z.of_nat (length (before_null s)))
  | SBlob b => SInt (Z.of_nat (length b))
  | _ => SInt (Z.of_nat (length (sv_text v)))
  end.
Definition literal (neg : bool) (s : pystr) : sval :=
  let z := Z.of_N (val_digits s) in
  if all_digits s && int64 z then SInt (if neg then - z else z) else SReal (if neg then - literal_real S s else literal_real S s)%Q.
(** the value of an operand, and the affinity it has in a comparison (none for literals and functions);
    None: an unknown column or function *)
Fixpoint eval (env : pystr -> option (sqltype * sval)) (o : operand) : option (option sqltype * sval) :=
  match o with
  | OCol c => match env c with Some (t, v) => Some (Some t, v) | None => None end
  | OStr s => Some (None, SText s)
  | ONum neg s => Some (None, literal neg s)
  | OFun f o =>
      match eval env o with
      | Some (_, v) => if str_eqb f (lit "LENGTH") then Some (None, sv_length v)
                       else if str_eqb f (lit "DATE") || str_eqb f (lit "DATETIME") then Some (None, date_fn S f v) else None
      | None => None
      end
  end.
(** datatype3.html, 4.2: which affinity is applied to the operands of a comparison *)
Definition numeric (t : option sqltype) : bool := match t with Some INTEGER | Some REAL => true | _ => false end.
Definition cmp_values (a b : option sqltype * sval) : sval * sval :=
  let (ta, va) := a in let (tb, vb) := b in
  if numeric ta && negb (numeric tb) then (va, affinity INTEGER vb)
  else if numeric tb && negb (numeric ta) then (affinity INTEGER va, vb)
  else match ta, tb with
       | Some TEXT, None => (va, affinity TEXT vb)
       | None, Some TEXT => (affinity TEXT va, vb)
       | _, _ => (va, vb)
       end.
Definition cmp_holds (op : cmp) (c : comparison) : bool :=
  match op, c with Ge, Lt => false | Le, Gt => false | EqS, (Lt | Gt) => false | _, _ => true end.
(** an atom: true, false, or unknown *)
Definition eval_atom (env : pystr -> option (sqltype * sval)) (a : atom) : option (option bool) :=
  match eval env (at_l a), eval env (at_r a) with
  | Some x, Some y => let (v, w) := cmp_values x y in
                      Some (match sv_cmp v w with Some c => Some (cmp_holds (at_op a) c) | None => None end)
  | _, _ => None
  end.
(** a CHECK constraint fails if it is false; a conjunction is false if one of its parts is *)
Definition check_holds (env : pystr -> option (sqltype * sval)) (l : list atom) : bool :=
  forallb (fun a => match eval_atom env a with Some (Some false) => false | _ => true end) l.
Definition check_known (env : pystr -> option (sqltype * sval)) (l : list atom) : bool :=
  forallb (fun a => match eval_atom env a with Some _ => true | None => false end) l.

(** ** Tables *)
Record table := { tb_name : pystr; tb_cols : list coldef; tb_pk : list pystr; tb_fks : list fkdef; tb_rows : list row }.
Definition db := list table.
Definition find_table (n : pystr) (D : db) : option table := find (fun t => same_name (tb_name t) n) D.
(** the place of a column *)
Fixpoint index_of (n : pystr) (names : list pystr) : option nat :=
  match names with
  | [] => None
  | m :: r => if same_name m n then Some O else match index_of n r with Some i => Some (Datatypes.S i) | None => None end
  end.
Definition col_names (t : table) : list pystr := map cd_name (tb_cols t).
Definition has_col (cols : list pystr) (n : pystr) : bool := match index_of n cols with Some _ => true | None => false end.
Fixpoint distinct (names : list pystr) : bool :=
  match names with [] => true | n :: r => negb (has_col r n) && distinct r end.
Definition reserved (n : pystr) : bool := startswith (lit "sqlite_") (ascii_lower n).
Definition env_of (cols : list coldef) (r : row) (n : pystr) : option (sqltype * sval) :=
  match index_of n (map cd_name cols) with
  | Some i => match nth_error cols i, nth_error r i with Some c, Some v => Some (cd_type c, v) | _, _ => None end
  | None => None
  end.
(** lang_createtable.html *)
Definition create (D : db) (n : pystr) (cols : list coldef) (pk : list pystr) (fks : list fkdef) : res db :=
  match find_table n D with
  | Some _ => Ok D
  | None =>
      let names := map cd_name cols in
      if reserved n || negb (distinct names) || negb (forallb (has_col names) pk) ||
         negb (forallb (fun f => forallb (has_col names) (fst (fst f)) && Nat.eqb (length (fst (fst f))) (length (snd f))) fks) ||
         negb (forallb (fun c => check_known (env_of cols (map (fun _ => SNull) cols)) (cd_check c)) cols)
      then Err OtherError
      else Ok (D ++ [{| tb_name := n; tb_cols := cols; tb_pk := pk; tb_fks := fks; tb_rows := [] |}])
  end.

(** a primary key that is one INTEGER column is the row number (lang_createtable.html#rowid) *)
Definition alias (t : table) : option nat :=
  match tb_pk t with
  | [p] => match index_of p (col_names t) with
           | Some i => match nth_error (tb_cols t) i with
                       | Some c => match cd_type c with INTEGER => Some i | _ => None end
                       | None => None
                       end
           | None => None
           end
  | _ => None
  end.
Definition value_at (i : nat) (r : row) : sval := nth i r SNull.
Definition set_at (i : nat) (v : sval) (r : row) : row := firstn i r ++ v :: skipn (Datatypes.S i) r.
Definition ints (l : list sval) : list Z := flat_map (fun v => match v with SInt z => [z] | _ => [] end) l.
Definition next_number (l : list sval) : Z := match ints l with [] => 1 | x :: r => fold_right Z.max x r + 1 end%Z.
(** the row number given to a row without one: at the largest number SQLite tries others, which is not modelled *)
Definition number_row (t : table) (r : row) : res row :=
  match alias t with
  | None => Ok r
  | Some i => match value_at i r with
              | SNull => let z := next_number (map (value_at i) (tb_rows t)) in if int64 z then Ok (set_at i (SInt z) r) else Err OtherError
              | SInt _ => Ok r
              | _ => Err IntegrityError
              end
  end.
Definition not_null_ok (t : table) (r : row) : bool :=
  forallb (fun cv => negb (cd_notnull (fst cv) && is_null (snd cv))) (combine (tb_cols t) r).
Definition checks_ok (t : table) (r : row) : bool :=
  forallb (fun c => check_holds (env_of (tb_cols t) r) (cd_check c)) (tb_cols t).
(** values of columns *)
Definition values_of (t : table) (names : list pystr) (r : row) : list sval :=
  map (fun n => match index_of n (col_names t) with Some i => value_at i r | None => SNull end) names.
Definition all_eqb (a b : list sval) : bool := forallb (fun xy => sv_eqb (fst xy) (snd xy)) (combine a b).
(** a row has the key of another; keys with NULL are distinct *)
Definition same_key (t : table) (r r' : row) : bool := all_eqb (values_of t (tb_pk t) r) (values_of t (tb_pk t) r').
Definition unique_ok (t : table) (r : row) : bool :=
  match tb_pk t with [] => true | _ => negb (existsb (same_key t r) (tb_rows t)) end.
(** foreignkeys.html: the table referred to must exist, with the columns referred to as primary key *)
Definition is_key (t : table) (cols : list pystr) : bool :=
  negb (match cols with [] => true | _ => false end) && Nat.eqb (length cols) (length (tb_pk t)) && forallb (has_col (tb_pk t)) cols && distinct cols.
Definition col_type (t : table) (n : pystr) : sqltype :=
  match index_of n (col_names t) with
  | Some i => match nth_error (tb_cols t) i with Some c => cd_type c | None => BLOB end
  | None => BLOB
  end.
Definition fk_holds (D : db) (t : table) (r : row) (f : fkdef) : res unit :=
  let '(cols, ref, refcols) := f in
  match find_table ref D with
  | None => Err OtherError
  | Some p =>
      if is_key p refcols then
        let child := values_of t cols r in
        if existsb is_null child then Ok tt
        else
          let want := map (fun nv => affinity (col_type p (fst nv)) (snd nv)) (combine refcols child) in
          if existsb (fun pr => all_eqb want (values_of p refcols pr)) (tb_rows p) then Ok tt else Err IntegrityError
      else Err OtherError
  end.
Fixpoint all_fks (D : db) (t : table) (r : row) (fks : list fkdef) : res unit :=
  match fks with [] => Ok tt | f :: rest => _ <- fk_holds D t r f ;; all_fks D t r rest end.

Definition with_rows (t : table) (rows : list row) : table :=
  {| tb_name := tb_name t; tb_cols := tb_cols t; tb_pk := tb_pk t; tb_fks := tb_fks t; tb_rows := rows |}.
Definition add_rows (n : pystr) (rows : list row) (D : db) : db :=
  map (fun u => if same_name (tb_name u) n then with_rows u (tb_rows u ++ rows) else u) D.
(** lang_insert.html: a row from the values given for some columns; the first value counts if a column is given twice *)
Definition fill (t : table) (cols : list pystr) (vals : list sval) : row :=
  map (fun c => match index_of (cd_name c) cols with Some j => affinity (cd_type c) (value_at j vals) | None => SNull end) (tb_cols t).
(** the row as it will be stored, if no constraint is violated; foreign keys are enforced *)
Definition new_row (D : db) (t : table) (r0 : row) : res row :=
  r <- number_row t r0 ;;
  if negb (not_null_ok t r) then Err IntegrityError
  else if negb (checks_ok t r) then Err IntegrityError
  else if negb (unique_ok t r) then Err IntegrityError
  else _ <- all_fks (add_rows (tb_name t) [r] D) t r (tb_fks t) ;; Ok r.
Definition insert_row (D : db) (n : pystr) (cols : list pystr) (vals : list sval) : res db :=
  match find_table n D with
  | None => Err OtherError
  | Some t =>
      if negb (forallb (has_col (col_names t)) cols) || negb (Nat.eqb (length vals) (length cols)) then Err OtherError
      else r <- new_row D t (fill t cols vals) ;; Ok (add_rows (tb_name t) [r] D)
  end.

(** ** Queries *)
Definition select_all (D : db) (n : pystr) : res (list pystr * list row) :=
  match find_table n D with
  | None => Err OtherError
  | Some t => Ok (col_names t, scan S (tb_rows t))
  end.
(** lang_aggfunc.html#group_concat: NULLs are left out; NULL if nothing is left *)
Definition group_concat (sep : pystr) (l : list sval) : sval :=
  match filter (fun v => negb (is_null v)) l with [] => SNull | l' => SText (join sep (map sv_text l')) end.
(** GROUP BY: NULLs are in one group *)
Definition group_eqb (a b : sval) : bool := (is_null a && is_null b) || sv_eqb a b.
Fixpoint group_by (i : nat) (rows : list row) (groups : list (sval * list row)) : list (sval * list row) :=
  match rows with
  | [] => groups
  | r :: rest =>
      let k := value_at i r in
      group_by i rest
        (if existsb (fun g => group_eqb (fst g) k) groups
         then map (fun g => if group_eqb (fst g) k then (fst g, snd g ++ [r]) else g) groups
         else groups ++ [(k, [r])])
  end.
(** SELECT k, group_concat(v, ' '), group_concat(COALESCE(context, ''), '||') FROM n [WHERE context = c] GROUP BY k *)
Definition select_group (D : db) (k v n : pystr) (context : option pystr) : res (list (sval * sval * sval)) :=
  match find_table n D with
  | None => Err OtherError
  | Some t =>
      match index_of k (col_names t), index_of v (col_names t), index_of (lit "context") (col_names t) with
      | Some ik, Some iv, Some ic =>
          let ctype := col_type t (lit "context") in
          let wanted r := match context with
                          | None => true
                          | Some c => let (a, b) := cmp_values (Some ctype, value_at ic r) (None, SText c) in sv_eqb a b
                          end in
          Ok (map (fun g => let rows := group_scan S (snd g) in
                            (fst g, group_concat (lit " ") (map (value_at iv) rows),
                             group_concat (lit "||") (map (fun r => match value_at ic r with SNull => SText [] | x => x end) rows)))
                  (group_by ik (filter wanted (tb_rows t)) []))
      | _, _, _ => Err OtherError
      end
  end.
End Fns.
