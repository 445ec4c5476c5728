(** metadata.Schema: metadata.py:855-986. *)
From Verif Require Import PyStr Dsv Json NatLang Column.

(** ForeignKey with its Reference: metadata.py:855-895 *)
Record fkey := {
  fk_cols : list pystr;              (* columnReference *)
  fk_resource : option pystr;        (* reference.resource *)
  fk_schemaReference : option pystr;
  fk_refcols : list pystr;           (* reference.columnReference *)
}.
(** Schema: metadata.py:908-931; rowTitles is not modelled *)
Record schema (V : Type) := {
  s_desc : desc V;
  s_columns : list (column V);
  s_primaryKey : option (list pystr);
  s_foreignKeys : list fkey;
}.
Arguments s_desc {V}. Arguments s_columns {V}. Arguments s_primaryKey {V}. Arguments s_foreignKeys {V}.

(** warnings.warn calls, by message *)
Inductive warning :=
| InvalidColumnName | DuplicateColumnName | PrimaryKeyWithoutName
| ColumnNumberMismatch | IncompatibleTableModels | IncompatibleColumnTitles
| RequiredMissing | DatatypeWarning | InvalidListElement | InvalidColumnValue | UnspecifiedColumn
| DuplicatePrimaryKey | IntegrityFailed | MetadataWarning.

Section Schema.
Context {V : Type}.
Implicit Types c : column V.
Definition truthy_name (o : option pystr) : option pystr := nonempty_opt o.
(** [col.name.startswith('_') or re.search(r'\s', col.name)] *)
Definition bad_name (n : pystr) : bool := startswith (lit "_") n || existsb is_space n.
Definition set_number c (n : nat) : column V :=
  {| c_desc := c_desc c; c_name := c_name c; c_titles := c_titles c; c_virtual := c_virtual c; c_number := Some n |}.

(** metadata.py:933-952: the loop over the columns.  Note that headers are computed before the column gets
    its number.  Setting [_parent] is implicit in the model (see Table.v: parents are passed along). *)
Fixpoint schema_loop (i : nat) (virtual : bool) (seen names : list pystr) (cols : list (column V))
  : res (list (column V) * list warning) :=
  match cols with
  | [] => Ok ([], [])
  | c :: rest =>
      let w1 := match truthy_name (c_name c) with Some n => if bad_name n then [InvalidColumnName] else [] | None => [] end in
      if negb (c_virtual c) && virtual then Err ValueError else
      let virtual' := virtual || c_virtual c in
      if virtual' then
        r <- schema_loop (S i) virtual' seen names rest ;;
        Ok (set_number c (S i) :: fst r, w1 ++ snd r)
      else
        h <- header c ;;
        let w2 := if str_mem h seen then [DuplicateColumnName] else [] in
        match truthy_name (c_name c) with
        | Some n =>
            if str_mem n names then Err ValueError
            else r <- schema_loop (S i) virtual' (h :: seen) (n :: names) rest ;;
                 Ok (set_number c (S i) :: fst r, w1 ++ w2 ++ snd r)
        | None =>
            r <- schema_loop (S i) virtual' (h :: seen) names rest ;;
            Ok (set_number c (S i) :: fst r, w1 ++ w2 ++ snd r)
        end
  end.

(** metadata.py:972-974 columndict *)
Definition columndict (cols : list (column V)) : res (list (pystr * column V)) :=
  hs <- mapM header cols ;;
  Ok (dset_all str_eqb [] (combine hs cols)).

(** metadata.py:953-957 *)
Fixpoint check_pk (cols : list (column V)) (pk : list pystr) (acc : option (list pystr)) : res (option (list pystr) * list warning) :=
  match pk with
  | [] => Ok (acc, [])
  | ref :: rest =>
      d <- columndict cols ;;
      match dget str_eqb d ref with
      | Some c => match truthy_name (c_name c) with
                  | None => r <- check_pk cols rest None ;; Ok (fst r, PrimaryKeyWithoutName :: snd r)
                  | Some _ => check_pk cols rest acc
                  end
      | None => check_pk cols rest acc
      end
  end.

(** Schema.__attrs_post_init__: metadata.py:933-957 *)
Definition schema_init (s : schema V) : res (schema V * list warning) :=
  r <- schema_loop 0 false [] [] (s_columns s) ;;
  p <- check_pk (fst r) (getdef (s_primaryKey s) []) (s_primaryKey s) ;;
  Ok ({| s_desc := s_desc s; s_columns := fst r; s_primaryKey := fst p; s_foreignKeys := s_foreignKeys s |}, snd r ++ snd p).

End Schema.
