(** C41: the SQL text that db.py generates says what it means.

    [parse] (Sql.v) is the reading of SQL text by the database; the statements meant are given as syntax trees:
    [create_of tr s] (DbSql.v) for a table, [SInsert], [SSelectAll], [SGroup]. *)
From Verif Require Import PyStr Dec Group Sql Db DbSql DbSqlSpec SqlProofs DbSqlProofs DbSqlProofs2.

(** ** Quoted names are names *)
(** For all names without backtick and null character, `quoted` gives the list of these names. *)
Theorem c41_names names : names <> [] -> (forall n, In n names -> clean n) -> tokens (quoted names) = Some (ids names).
Proof.
  intros N H. unfold tokens. rewrite (nn_mem (quoted names)) by (apply nn_names, H). f_equal.
  destruct (LG_quoted names N) as (st & [X _] & _); [|exact X]. apply Forall_forall. intros n Hn. apply (H n Hn).
Qed.
Print Assumptions c41_names.

(** A name with a backtick is never quoted as itself, whatever follows. *)
Theorem c41_backtick n rest : In BT n -> tokens (quoted [n]) <> Some (TId n :: rest).
Proof.
  intros H. unfold tokens. destruct (char_mem 0 (quoted [n])); [discriminate|]. intros E. injection E as E. apply (backtick_name n rest H). exact E.
Qed.
Print Assumptions c41_backtick.
(** A null character makes the text unusable. *)
Theorem c41_null names n : In n names -> In 0 n -> tokens (quoted names) = None.
Proof.
  intros H H0. unfold tokens. assert (X : In 0 (quoted names)).
  { unfold quoted. revert H. induction names as [|m l IH]; intros H; [destruct H|]. destruct l as [|m2 l].
    - destruct H as [->|[]]. cbn [map join]. unfold bt. right. apply in_or_app. left. exact H0.
    - change (In 0 (bt m ++ lit "," ++ join (lit ",") (map bt (m2 :: l)))). destruct H as [->|H].
      + apply in_or_app. left. right. apply in_or_app. left. exact H0.
      + apply in_or_app. right. apply in_or_app. right. apply IH, H. }
  apply char_mem_In in X. rewrite X. reflexivity.
Qed.
Print Assumptions c41_null.

(** ** Statements *)
(** CREATE TABLE: the statement read is the one meant: same table, columns with type, NOT NULL and CHECK constraint,
    primary key and foreign keys, in the same order. *)
Theorem c41_create tr s : sql_clean tr s -> parse (table_sql tr s) = Some (create_of tr s).
Proof. apply create_parses. Qed.
Print Assumptions c41_create.
(** INSERT: the table, its columns in the given order, and as many parameters. *)
Theorem c41_insert tr table keys : clean (tr table None) -> (forall k, In k keys -> clean (tr table (Some k))) -> keys <> [] ->
  parse (insert_sql tr table keys) = Some (SInsert (tr table None) (map (fun k => tr table (Some k)) keys) (length keys)).
Proof. apply insert_parses. Qed.
Print Assumptions c41_insert.
(** SELECT *)
Theorem c41_select n : clean n -> parse (select_sql n) = Some (SSelectAll n).
Proof. apply select_parses. Qed.
Print Assumptions c41_select.
(** the query for the association table of a list-valued foreign key *)
Theorem c41_group tr a context :
  clean (tr (as_name a) (Some (as_afk a))) -> clean (tr (as_name a) (Some (as_bfk a))) -> clean (tr (as_name a) None) ->
  ~ In QT context -> ~ In 0 context ->
  parse (group_sql tr a context) =
  Some (SGroup (tr (as_name a) (Some (as_afk a))) (tr (as_name a) (Some (as_bfk a))) (tr (as_name a) None) (Some context)).
Proof. apply group_parses. Qed.
Print Assumptions c41_group.
(** A table whose name has a backtick is not the one read from. *)
Theorem c41_backtick_select n : In BT n -> parse (select_sql n) <> Some (SSelectAll n).
Proof.
  intros H. unfold parse, tokens. destruct (char_mem 0 (select_sql n)); [discriminate|]. cbn [obind]. rewrite select_tokens.
  pose proof (fun rest => backtick_name n rest H) as B. destruct (lex (bt n)) as [|t rest].
  - discriminate.
  - change (p_create _) with (@None stmt). change (p_insert _) with (@None stmt). cbv iota.
    unfold p_select_all. change (expect _ _) with (Some (t :: rest)). cbn [obind p_id].
    destruct t as [m| | | | | |]; try discriminate. cbn [obind fst snd]. destruct rest as [|t' rest]; [|discriminate]. cbn [p_end obind].
    intros E. injection E as ->. apply (B [] eq_refl).
Qed.
Print Assumptions c41_backtick_select.

(** ** Cases *)
Definition demo_col (n t : pystr) (dt : option dtinfo) : colspec := new_colspec n (Some t) None true dt.
Definition demo_dt : dtinfo := {| di_base := lit "integer"; di_min := Some (lit "-5"); di_max := Some (lit "1.5E+3"); di_length := None; di_minLength := None; di_maxLength := None |}.
Definition demo_date : dtinfo := {| di_base := lit "date"; di_min := Some (lit "2020-01-01"); di_max := None; di_length := None; di_minLength := None; di_maxLength := None |}.
Definition demo : tablespec :=
  {| ts_name := lit "my table, (with) 'punctuation' --"; ts_cols := [demo_col (lit "select") (lit "integer") (Some demo_dt); demo_col (lit "d") (lit "date") (Some demo_date)];
     ts_fks := [([lit "d"], lit "other", [lit "id"])]; ts_m2m := []; ts_pk := [lit "select"] |}.
Ltac clean_tac := split; vm_compute; intuition discriminate.
Lemma c41_nonvacuous : sql_clean name_translator demo /\ exists st, parse (table_sql name_translator demo) = Some st.
Proof.
  split; [|eexists; vm_compute; reflexivity]. split.
  - clean_tac.
  - intros c [<-|[<-|[]]]; (split; [clean_tac|]); split; intros s E; vm_compute in E; try discriminate E; injection E as <-; cbn; try (split; vm_compute; intuition discriminate); reflexivity.
  - discriminate.
  - intros c [<-|[]]. clean_tac.
  - intros fk [<-|[]]. cbn [fst snd]. split; [discriminate|]. split; [discriminate|]. split; [intros c [<-|[]]; clean_tac|]. split; [clean_tac|intros c [<-|[]]; clean_tac].
Qed.
(** A table name with a backtick that changes the statement: the row goes to another table. *)
Example c41_injection_refuted :
  parse (insert_sql name_translator (lit "t` (`x`) VALUES (?) -- ") [lit "a"]) = Some (SInsert (lit "t") [lit "x"] 1).
Proof. vm_compute. reflexivity. Qed.
(** A doubled backtick stands for one. *)
Example c41_double_refuted : parse (select_sql (lit "a``b")) = Some (SSelectAll (lit "a`b")).
Proof. vm_compute. reflexivity. Qed.
(** A context, i.e. a column name, with a quote makes an invalid query. *)
Example c41_context_refuted :
  parse (group_sql name_translator {| as_a := lit "a"; as_apk := lit "id"; as_b := lit "b"; as_bpk := lit "id" |} (lit "it's")) = None.
Proof. vm_compute. reflexivity. Qed.
(** A table without columns gives invalid SQL. *)
Example c41_no_columns_refuted :
  parse (table_sql name_translator {| ts_name := lit "t"; ts_cols := []; ts_fks := []; ts_m2m := []; ts_pk := [] |}) = None.
Proof. vm_compute. reflexivity. Qed.
(** So do a minimum or a maximum that is not a number, for types other than date and datetime: *)
Example c41_bound_refuted :
  parse (table_sql name_translator {| ts_name := lit "t"; ts_cols := [new_colspec (lit "c") (Some (lit "dateTime")) None false
     (Some {| di_base := lit "dateTime"; di_min := Some (lit "2020-01-01 00:00:00"); di_max := None; di_length := None; di_minLength := None; di_maxLength := None |})];
     ts_fks := []; ts_m2m := []; ts_pk := [] |}) = None.
Proof. vm_compute. reflexivity. Qed.
