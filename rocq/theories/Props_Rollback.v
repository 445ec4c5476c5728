(** C43: a write that fails leaves no rows.

    The database is that of Sqlite.v.  [write_file] gives the states in which the file has been (what a reader, or a crash at
    that moment, would find), what is at the path afterwards, and the outcome.  [row_free], [no_new_rows]: DbWriteSpec.v. *)
From Coq Require Import QArith.
From Verif Require Import PyStr Dsv Dec Dates Datatype Column Group Sql Db DbSql DbSqlSpec Sqlite SqliteProofs DbWrite DbWriteSpec DbWriteProofs.
Open Scope N_scope.

Lemma no_new_free D : no_new_rows [] D -> row_free D.
Proof. intros (n & -> & H). exact H. Qed.
Lemma new_conn_write P St tr skip tables items : let (c, r) := write_conn P St tr skip tables items new_conn in
  Forall row_free (c_log c) /\ match r with Ok _ => True | Err _ => row_free (c_disk c) end.
Proof.
  pose proof (write_conn_disk P St tr skip tables items new_conn eq_refl) as K.
  destruct (write_conn P St tr skip tables items new_conn) as [c r]. destruct K as ((l & E & F) & K). split.
  - rewrite E. cbn [c_log new_conn app]. eapply Forall_impl; [|exact F]. intros D. apply no_new_free.
  - destruct r; [exact I|]. apply no_new_free, K.
Qed.

(** ** A database file *)
(** When the write fails, for whatever reason and at whatever row: either there was a file, it may not be overwritten, and it is
    untouched; or what is left is a file whose tables have no rows. *)
Theorem c43_failed P St tr force skip tables items file states final e :
  write_file P St tr force skip tables items file = (states, final, Err e) ->
  (force = false /\ file <> None /\ states = [] /\ final = file) \/ exists D, final = Some D /\ row_free D.
Proof.
  unfold write_file. pose proof (new_conn_write P St tr skip tables items) as K. fold new_conn.
  destruct (write_conn P St tr skip tables items new_conn) as [c r]. destruct K as [K1 K2].
  destruct file as [D|].
  - destruct force.
    + intros H. injection H as <- <- ->. right. exists (c_disk c). split; [reflexivity|exact K2].
    + intros H. injection H as <- <- <-. left. repeat split. discriminate.
  - intros H. injection H as <- <- ->. right. exists (c_disk c). split; [reflexivity|exact K2].
Qed.
Print Assumptions c43_failed.
(** At any moment before the end (also of a write that succeeds), what is at the path is what was there before, or nothing, or a
    file whose tables have no rows: no part of the rows is ever there without the others. *)
Theorem c43_all_or_nothing P St tr force skip tables items file states final r :
  write_file P St tr force skip tables items file = (states, final, r) ->
  forall f, In f states -> f = file \/ f = None \/ exists D, f = Some D /\ row_free D.
Proof.
  unfold write_file. pose proof (new_conn_write P St tr skip tables items) as K. fold new_conn.
  destruct (write_conn P St tr skip tables items new_conn) as [c o]. destruct K as [K1 K2].
  assert (X : forall f, In f (map Some (c_log (rollback c))) -> exists D, f = Some D /\ row_free D).
  { intros f H. apply in_map_iff in H. destruct H as (D & <- & H). exists D. split; [reflexivity|]. rewrite Forall_forall in K1. apply K1, H. }
  destruct file as [D|].
  - destruct force; intros H; injection H as <- <- <-; intros f Hf; [|destruct Hf].
    destruct Hf as [<-|[<-|Hf]]; auto.
  - intros H; injection H as <- <- <-; intros f Hf. destruct Hf as [<-|Hf]; auto.
Qed.
Print Assumptions c43_all_or_nothing.
(** A file is overwritten only with force, and reported as an error otherwise. *)
Theorem c43_exists P St tr skip tables items D :
  write_file P St tr false skip tables items (Some D) = ([], Some D, Err ValueError).
Proof. reflexivity. Qed.
Print Assumptions c43_exists.
(** With force, the old file is deleted first: rows in it are lost even if the write fails. *)
Theorem c43_force_loses P St tr skip tables items D states final e : ~ row_free D ->
  write_file P St tr true skip tables items (Some D) = (states, final, Err e) -> final <> Some D.
Proof.
  intros N H E. destruct (c43_failed _ _ _ _ _ _ _ _ _ _ _ H) as [(X & _)|(D' & X & F)]; [discriminate|].
  rewrite X in E. injection E as ->. contradiction.
Qed.
Print Assumptions c43_force_loses.

(** ** An in-memory database *)
(** After a failed write the connection has no open transaction, the tables it had have the rows they had, and tables added have none;
    so it was at every commit in between. *)
Theorem c43_memory P St tr skip tables items c c' e : idle c ->
  write_memory P St tr skip tables items c = (c', Err e) -> idle c' /\ no_new_rows (c_disk c) (current c').
Proof.
  intros H W. unfold write_memory in W. pose proof (write_conn_disk P St tr skip tables items c H) as K.
  destruct (write_conn P St tr skip tables items c) as [c1 [u|e1]]; [discriminate W|]. injection W as <- _.
  split; [reflexivity|]. exact (proj2 K).
Qed.
Print Assumptions c43_memory.
Theorem c43_memory_log P St tr skip tables items c c' r : idle c -> write_memory P St tr skip tables items c = (c', r) ->
  exists l, c_log c' = c_log c ++ l /\ Forall (no_new_rows (c_disk c)) l.
Proof.
  intros H W. unfold write_memory in W. pose proof (write_conn_disk P St tr skip tables items c H) as K.
  destruct (write_conn P St tr skip tables items c) as [c1 [u|e1]].
  - destruct K as [K I]. assert (E : commit c1 = c1) by (unfold commit; rewrite I; reflexivity). rewrite E in W. injection W as <- _. exact K.
  - injection W as <- _. exact (proj1 K).
Qed.
Print Assumptions c43_memory_log.

(** ** Examples *)
Definition toy_py : py_fns :=
  {| to_string := fun _ v => match v with VStr s => Ok s | _ => Err TypeError end;
     to_python := fun _ s => Ok (VStr s);
     py_float := fun v => match v with VInt z => Ok (inject_Z z) | _ => Err TypeError end;
     py_int := fun _ => Err TypeError;
     of_float := fun _ => VStr [];
     decimal_of := fun v => match v with SReal q => Ok (VInt (Qnum q)) | SInt z => Ok (VInt z) | _ => Err TypeError end;
     dumps := fun l => match l with [] => Ok (lit "[]") | _ => Err TypeError end;
     loads := fun _ => Ok (PList []);
     adapt := fun _ => [] |}.
Definition toy_store : store_fns :=
  {| real_text := fun q => int_str (Qnum q);
     text_number := fun s => if negb (str_eqb s []) && all_digits s then Some (SInt (Z.of_N (val_digits s))) else None;
     literal_real := fun s => inject_Z (Z.of_N (val_digits s));
     int_real := inject_Z;
     date_fn := fun _ v => v;
     scan := fun l => l;
     group_scan := fun l => l |}.
Definition toy_col n t : colspec := new_colspec (lit n) (Some (lit t)) None false None.
Definition toy_words : tablespec :=
  {| ts_name := lit "words"; ts_cols := [toy_col "id" "string"; toy_col "form" "string"]; ts_fks := []; ts_m2m := []; ts_pk := [lit "id"] |}.
Definition word i f : drow := [(lit "id", POne (VStr (lit i))); (lit "form", POne (VStr (lit f)))].

(** a write that succeeds, one that fails at the third row because of the primary key, and one into an existing file *)
Example c43_nonvacuous :
  (exists st, write_file toy_py toy_store name_translator false false [toy_words] [(lit "words", [word "1" "a"; word "2" "b"])] None =
     (st, Some [{| tb_name := lit "words"; tb_cols := map (coldef_of name_translator (lit "words")) (ts_cols toy_words); tb_pk := [lit "id"];
                   tb_fks := []; tb_rows := [[SText (lit "1"); SText (lit "a")]; [SText (lit "2"); SText (lit "b")]] |}], Ok tt)) /\
  (exists st, write_file toy_py toy_store name_translator false false [toy_words] [(lit "words", [word "1" "a"; word "2" "b"; word "1" "c"])] None =
     (st, Some [{| tb_name := lit "words"; tb_cols := map (coldef_of name_translator (lit "words")) (ts_cols toy_words); tb_pk := [lit "id"];
                   tb_fks := []; tb_rows := [] |}], Err IntegrityError)) /\
  (exists st, write_file toy_py toy_store name_translator true false [toy_words] [(lit "words", [[(lit "x", PNone)]])]
     (Some [{| tb_name := lit "old"; tb_cols := []; tb_pk := []; tb_fks := []; tb_rows := [[SNull]] |}]) =
     (st, Some [{| tb_name := lit "words"; tb_cols := map (coldef_of name_translator (lit "words")) (ts_cols toy_words); tb_pk := [lit "id"];
                   tb_fks := []; tb_rows := [] |}], Err KeyError)).
Proof. split; [|split]; eexists; vm_compute; reflexivity. Qed.

(** The rows of a failed statement are tried again one by one, and the rows inserted before the failure are not removed: with row numbers given by
    the database and a foreign key to the table itself (drop_self_referential_fks=False) a write can succeed with a row inserted twice. *)
Definition toy_tree : tablespec :=
  {| ts_name := lit "tree"; ts_cols := [toy_col "id" "integer"; toy_col "parent" "integer"];
     ts_fks := [([lit "parent"], lit "tree", [lit "id"])]; ts_m2m := []; ts_pk := [lit "id"] |}.
Definition node p : drow := [(lit "id", PNone); (lit "parent", p)].
Example c43_retry_refuted : exists st D t,
  write_file toy_py toy_store name_translator false false [toy_tree] [(lit "tree", [node PNone; node (POne (VInt 3))])] None = (st, Some D, Ok tt) /\
  find_table (lit "tree") D = Some t /\
  tb_rows t = [[SInt 1; SNull]; [SInt 2; SNull]; [SInt 3; SInt 3]].
Proof. eexists _, _, _. split; [vm_compute; reflexivity|]. split; vm_compute; reflexivity. Qed.
