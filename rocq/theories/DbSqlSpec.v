(** Specifications for the generated SQL (C41). *)
From Verif Require Import PyStr Dec Group Sql Db DbSql.

(** names, separated by commas, as tokens *)
Definition joint (sep : list tok) : list (list tok) -> list tok :=
  fix go l := match l with [] => [] | [x] => x | x :: r => x ++ sep ++ go r end.
Definition comma : tok := TPunct 44.
Definition ids (names : list pystr) : list tok := joint [comma] (map (fun n => [TId n]) names).

(** a number of SQL, and one with a sign *)
Fixpoint num_tail (acc s : pystr) : bool := match s with [] => true | c :: r => num_char acc c && num_tail (acc ++ [c]) r end.
Definition is_number (s : pystr) : bool := match s with c :: r => is_digit c && num_tail [c] r | [] => false end.
Definition is_signed (s : pystr) : bool := match s with 45 :: d => is_number d | _ => is_number s end.

(** a name without backtick or null character *)
Definition clean (n : pystr) : Prop := ~ In BT n /\ ~ In 0 n.
(** a bound that can be put into SQL text: within quotes for dates, a number otherwise *)
Definition clean_literal (func : option pystr) (s : pystr) : Prop :=
  match func with Some _ => ~ In QT s /\ ~ In 0 s | None => is_signed s = true end.
Definition bounds_clean (c : colspec) : Prop :=
  match cs_csvw c with
  | None => True
  | Some d => (forall s, di_min d = Some s -> clean_literal (date_func (cs_type c)) s) /\
              (forall s, di_max d = Some s -> clean_literal (date_func (cs_type c)) s)
  end.
(** the names of a table, of its columns and foreign keys, and the bounds of its datatypes, are clean *)
Record sql_clean (tr : translator) (s : tablespec) : Prop := {
  sc_table : clean (tr (ts_name s) None);
  sc_cols : forall c, In c (ts_cols s) -> clean (tr (ts_name s) (Some (cs_name c))) /\ bounds_clean c;
  sc_some : ts_cols s <> [];
  sc_pk : forall c, In c (ts_pk s) -> clean (tr (ts_name s) (Some c));
  sc_fks : forall fk, In fk (ts_fks s) -> fst (fst fk) <> [] /\ snd fk <> [] /\
             (forall c, In c (fst (fst fk)) -> clean (tr (ts_name s) (Some c))) /\ clean (tr (snd (fst fk)) None) /\
             (forall c, In c (snd fk) -> clean (tr (snd (fst fk)) (Some c)));
}.
