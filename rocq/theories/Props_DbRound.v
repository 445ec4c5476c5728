(** C39, C40: what Database.write has written, Database.read returns.

    The database is that of Sqlite.v; that rows are returned in any order, and put into groups in any order, is in [store_fns].  What is supposed of
    the tables and rows, and what is expected: DbWriteSpec.v. *)
From Coq Require Import QArith Permutation.
From Verif Require Import PyStr Dsv DsvProofs4 Dec Dates Datatype Column Group Sql Db DbSql DbSqlSpec Sqlite SqliteProofs DbWrite DbWriteSpec
  DbSpec DbProofs DbWriteProofs DbReadProofs3 DbReadProofs6 Props_Rollback.
Open Scope N_scope.

Lemma file_written P St tr force skip tables items file st D : write_file P St tr force skip tables items file = (st, Some D, Ok tt) ->
  exists c, write_conn P St tr skip tables items new_conn = (c, Ok tt) /\ c_disk c = D.
Proof.
  unfold write_file. fold new_conn. destruct (write_conn P St tr skip tables items new_conn) as [c r].
  destruct file as [F|]; [destruct force|]; intros H; try discriminate H; injection H as <- <- ->; exists c; split; reflexivity.
Qed.

(** ** C39: a database file *)
(** The rows of each table, in some order: each has the columns of the table in their order, with the values written (None if the row
    had no such key), and the keys of list-valued foreign keys in some order. *)
Theorem c39_file P St tr force skip tables items file st D ss :
  (forall l, Permutation (scan St l) l) -> (forall l, Permutation (group_scan St l) l) ->
  tables_ok tr tables -> only_tables tables items ->
  (forall s, In s tables -> rows_ok P s (data items s) /\ lists_ok tr s (data items s)) ->
  NoDup (map ts_name ss) -> (forall s, In s ss -> In s tables /\ free tables s) ->
  write_file P St tr force skip tables items file = (st, Some D, Ok tt) ->
  exists out, read P St tr D tables (map ts_name ss) = Ok out /\
    forall s, In s ss -> exists rows, Permutation rows (data items s) /\ Forall2 (row_back tr s) rows (got_rows tr out (ts_name s)).
Proof.
  intros Sc Gr Ht Hd H N Hs Wf. destruct (file_written _ _ _ _ _ _ _ _ _ _ Wf) as (c & Wc & <-).
  destruct (write_contents P St tr skip tables items Ht (fun s I => proj1 (H s I)) (fun s I => proj2 (H s I)) Hd c Wc) as (_ & h & W).
  apply (read_ok P St tr tables items Sc Gr Ht (fun s I => proj1 (H s I)) (fun s I => proj2 (H s I)) (c_disk c) h W ss N Hs).
Qed.
Print Assumptions c39_file.
(** If the database returns rows in the order in which they were inserted, they come in the order in which they were written. *)
Theorem c39_order P St tr force skip tables items file st D ss :
  (forall l, scan St l = l) -> (forall l, group_scan St l = l) ->
  tables_ok tr tables -> only_tables tables items ->
  (forall s, In s tables -> rows_ok P s (data items s) /\ lists_ok tr s (data items s)) ->
  NoDup (map ts_name ss) -> (forall s, In s ss -> In s tables /\ free tables s) ->
  write_file P St tr force skip tables items file = (st, Some D, Ok tt) ->
  exists out, read P St tr D tables (map ts_name ss) = Ok out /\
    forall s, In s ss -> Forall2 (row_exact tr s) (data items s) (got_rows tr out (ts_name s)).
Proof.
  intros Sc Gr Ht Hd H N Hs Wf. destruct (file_written _ _ _ _ _ _ _ _ _ _ Wf) as (c & Wc & <-).
  destruct (write_contents P St tr skip tables items Ht (fun s I => proj1 (H s I)) (fun s I => proj2 (H s I)) Hd c Wc) as (_ & h & W).
  refine (read_exact P St tr tables items _ Ht (fun s I => proj1 (H s I)) (fun s I => proj2 (H s I)) (c_disk c) h W ss Sc Gr N Hs).
  intros l. rewrite Gr. apply Permutation_refl.
Qed.
Print Assumptions c39_order.
(** An in-memory database, new: the same, with the connection kept. *)
Theorem c39_memory P St tr skip tables items c ss :
  (forall l, Permutation (scan St l) l) -> (forall l, Permutation (group_scan St l) l) ->
  tables_ok tr tables -> only_tables tables items ->
  (forall s, In s tables -> rows_ok P s (data items s) /\ lists_ok tr s (data items s)) ->
  NoDup (map ts_name ss) -> (forall s, In s ss -> In s tables /\ free tables s) ->
  write_memory P St tr skip tables items new_conn = (c, Ok tt) ->
  exists out, read P St tr (current c) tables (map ts_name ss) = Ok out /\
    forall s, In s ss -> exists rows, Permutation rows (data items s) /\ Forall2 (row_back tr s) rows (got_rows tr out (ts_name s)).
Proof.
  intros Sc Gr Ht Hd H N Hs Wm. unfold write_memory in Wm. destruct (write_conn P St tr skip tables items new_conn) as [c1 [[]|e]] eqn:Wc; [|discriminate Wm].
  destruct (write_contents P St tr skip tables items Ht (fun s I => proj1 (H s I)) (fun s I => proj2 (H s I)) Hd c1 Wc) as (Cw & h & W).
  injection Wm as <-. unfold commit, current. rewrite Cw. rewrite Cw.
  apply (read_ok P St tr tables items Sc Gr Ht (fun s I => proj1 (H s I)) (fun s I => proj2 (H s I)) (c_disk c1) h W ss N Hs).
Qed.
Print Assumptions c39_memory.
(** Strings, integers, booleans, bytes and lists of strings always survive, whatever datatypes.py, float() and JSON do. *)
Theorem c39_basic P s rows :
  (exists keys, NoDup keys /\ forall r, In r rows -> map fst r = keys) ->
  (forall r c, In r rows -> In c (ts_cols s) -> basic_value c (value_or_none r (cs_name c))) ->
  (forall r c, In r rows -> In c (ts_cols s) -> ts_pk s = [cs_name c] ->
    opt_true (cs_separator c) = false /\ (cs_db_type c = INTEGER -> dget str_eqb r (cs_name c) <> Some PNone)) ->
  rows_ok P s rows.
Proof.
  intros K V Pk. constructor; [exact K| |exact Pk]. intros r c Ir Ic. specialize (V r c Ir Ic). destruct (value_or_none r (cs_name c)) as [|x|l].
  - exact I.
  - destruct V as [Sp V]. split; [exact Sp|]. destruct x; try contradiction V; rewrite V; cbn; eexists; reflexivity.
  - destruct V as (Ty & ch & Sp & ts & -> & Ne & Hc). exists ch, []. split; [exact Sp|]. rewrite Ty. cbn. exists ts. split; [reflexivity|].
    destruct ts as [|t ts]; [left; reflexivity|right]. split; [exact Ne|]. apply split_join1; [discriminate|exact Hc].
Qed.
Print Assumptions c39_basic.
(** What is supposed of the types of columns, and of association tables, holds for the tables that db.py makes of the descriptions of a table group, if
    different tables have different names (C37). *)
Lemma add_fk_name drop name pk lv acc fk acc' : add_fk drop name pk lv acc fk = Ok acc' -> (forall k a, In (k, a) (snd acc) -> as_a a = name) ->
  forall k a, In (k, a) (snd acc') -> as_a a = name.
Proof.
  unfold add_fk. intros H Ha. destruct (dk_schema fk); [apply Ok_inj in H; subst; exact Ha|].
  assert (Pl : (if drop && str_eqb (dk_resource fk) name then Ok acc
      else Ok (fst acc ++ [(sort_strs (dk_cols fk), dk_resource fk, sort_strs (dk_refcols fk))], snd acc)) = Ok acc' -> forall k a, In (k, a) (snd acc') -> as_a a = name).
  { intros E. destruct (_ && _); apply Ok_inj in E; subst; exact Ha. }
  revert H Pl. destruct (dk_cols fk) as [|c [|]]; intros H Pl; try exact (Pl H). destruct (str_mem c lv); [|exact (Pl H)]. clear Pl. destruct (dk_refcols fk) as [|x [|]]; try discriminate H. destruct pk as [|p [|]]; try discriminate H.
  apply Ok_inj in H. subst. cbn [snd]. intros k a Hk.
  assert (X : forall d : list (pystr * assoc), (forall k a, In (k, a) d -> as_a a = name) -> forall k v k' a, as_a v = name -> In (k', a) (dset str_eqb d k v) -> as_a a = name).
  { clear. induction d as [|[k0 v0] d IH]; intros Hd k v k' a Hv H; cbn [dset] in H.
    - destruct H as [H|[]]. injection H as _ <-. exact Hv.
    - destruct (str_eqb k k0).
      + destruct H as [H|H]; [injection H as _ <-; exact Hv|]. apply (Hd k'). right. exact H.
      + destruct H as [H|H]; [injection H as _ <-; apply (Hd k0); left; reflexivity|]. apply (IH (fun k a Hk => Hd k a (or_intror Hk)) k v k' a Hv H). }
  apply (X (snd acc) Ha c {| as_a := name; as_apk := p; as_b := dk_resource fk; as_bpk := x |} k a eq_refl Hk).
Qed.
Theorem c39_schema drop ts tables : schema drop ts = Ok tables ->
  (forall s c, In s tables -> In c (ts_cols s) -> cs_db_type c = db_type (cs_type c) (cs_separator c)) /\
  (forall s k a, In s tables -> In (k, a) (ts_m2m s) -> as_a a = ts_name s) /\
  forall ss, mapM (from_table_metadata drop) (map snd (dtables ts)) = Ok ss -> no_name_clash ss ->
    forall s k a, In s tables -> In (k, a) (ts_m2m s) -> In (association_table a) tables.
Proof.
  intros H. destruct (schema_sound _ _ _ _ H) as (ss & d & M & <- & Pm & _).
  assert (Wn : forall s, In s tables -> In s (wanted ss)).
  { intros s I. apply (Permutation_in _ Pm) in I. apply in_map_iff in I. destruct I as (x & <- & Ix). apply (proj1 (proj2 (dict_of_spec ss))), Ix. }
  assert (Fm : forall s, In s ss -> exists t, from_table_metadata drop t = Ok s).
  { clear -M. revert ss M. induction (map snd (dtables ts)) as [|t l IH]; intros ss M; cbn [mapM] in M; [apply Ok_inj in M; subst; intros s []|].
    destruct (from_table_metadata drop t) as [s0|] eqn:E; [|discriminate M]. cbn [bind] in M. destruct (mapM _ l) as [ss'|]; [|discriminate M]. cbn [bind] in M. apply Ok_inj in M. subst.
    intros s [<-|I]; [exists t; exact E|]. apply (IH ss' eq_refl s I). }
  assert (Kind : forall s, In s tables -> (exists t, from_table_metadata drop t = Ok s) \/ exists a, s = association_table a).
  { intros s I. apply Wn in I. unfold wanted in I. apply in_flat_map in I. destruct I as (s0 & I0 & [<-|I]); [left; apply Fm, I0|right].
    apply in_map_iff in I. destruct I as (ca & <- & _). exists (snd ca). reflexivity. }
  split; [|split].
  - intros s c Is Ic. destruct (Kind s Is) as [[t E]|[a ->]].
    + unfold from_table_metadata in E. destruct (add_fks _ _ _ _ _ _) as [x|]; [|discriminate E]. cbn [bind] in E. apply Ok_inj in E. subst s. cbn [ts_cols] in Ic.
      apply in_map_iff in Ic. destruct Ic as (d & <- & _). reflexivity.
    + destruct Ic as [<-|[<-|[<-|[]]]]; reflexivity.
  - intros s k a Is Ia. destruct (Kind s Is) as [[t E]|[a' ->]]; [|destruct Ia].
    unfold from_table_metadata in E. destruct (add_fks drop (dt_name t) (dt_pk t) (list_valued t) ([], []) (dt_fks t)) as [x|] eqn:Ef; [|discriminate E]. cbn [bind] in E. apply Ok_inj in E.
    subst s. cbn [ts_name ts_m2m] in *. assert (A0 : forall (k : pystr) (a : assoc), In (k, a) (snd ([] : list fkspec, [] : list (pystr * assoc))) -> as_a a = dt_name t) by (intros ? ? []).
    revert Ef A0. generalize ([] : list fkspec, [] : list (pystr * assoc)). clear -Ia. induction (dt_fks t) as [|fk fks IH]; intros acc Ef A0; cbn [add_fks] in Ef.
    + apply Ok_inj in Ef. subst. apply (A0 k a Ia).
    + destruct (add_fk drop (dt_name t) (dt_pk t) (list_valued t) acc fk) as [acc'|] eqn:E1; [|discriminate Ef]. cbn [bind] in Ef.
      apply (IH acc' Ef). intros k' a' I'. apply (add_fk_name _ _ _ _ _ _ _ E1 A0 k' a' I').
  - intros ss' M' Nc s k a Is Ia. rewrite M in M'. apply Ok_inj in M'. subst ss'. apply (Permutation_in _ (Permutation_sym Pm)). apply (dict_of_wanted ss Nc).
    pose proof (Wn s Is) as I. unfold wanted in *. apply in_flat_map in I. destruct I as (s0 & I0 & [<-|I]).
    + apply in_flat_map. exists s0. split; [exact I0|]. right. apply (in_map (fun ca => association_table (snd ca)) _ (k, a)), Ia.
    + apply in_map_iff in I. destruct I as (ca & <- & _). destruct Ia.
Qed.
Print Assumptions c39_schema.

(** ** C40: list-valued foreign keys *)
(** Each row gets, for each list-valued foreign key, the keys written for this row and this column, and no others, in some order; the value is a
    list also if None was written. *)
Theorem c40_lists P St tr force skip tables items file st D s :
  (forall l, Permutation (scan St l) l) -> (forall l, Permutation (group_scan St l) l) ->
  tables_ok tr tables -> only_tables tables items ->
  (forall s, In s tables -> rows_ok P s (data items s) /\ lists_ok tr s (data items s)) ->
  In s tables -> free tables s ->
  write_file P St tr force skip tables items file = (st, Some D, Ok tt) ->
  exists out, read P St tr D tables [ts_name s] = Ok out /\
    exists rows, Permutation rows (data items s) /\
    Forall2 (fun r o => forall k a, In (k, a) (ts_m2m s) ->
      exists keys, dget str_eqb o k = Some (PList (map (fun t => Some (VStr t)) keys)) /\ Permutation keys (listed r k))
      rows (got_rows tr out (ts_name s)).
Proof.
  intros Sc Gr Ht Hd H Is Fs Wf.
  destruct (c39_file P St tr force skip tables items file st D [s] Sc Gr Ht Hd H) as (out & Ro & X); [repeat constructor; intros []|intros s' [<-|[]]; auto|exact Wf|].
  exists out. split; [exact Ro|]. destruct (X s (or_introl eq_refl)) as (rows & Pr & F). exists rows. split; [exact Pr|].
  destruct (lk_columns _ _ _ (proj2 (H s Is))) as [Nm Hm]. revert F. apply DbReadProofs5.Forall2_imp. intros r o (lists & -> & Fl) k a Ia.
  rewrite dget_app.
  assert (Z : dget str_eqb (cells tr s r) k = None).
  { destruct (dget str_eqb (cells tr s r) k) as [v|] eqn:E; [|reflexivity]. exfalso. apply dget_has in E. unfold cells in E. apply in_map_iff in E. destruct E as (c & Ec & Ic).
    injection Ec as Ec _. destruct (Hm k a Ia) as (_ & Y & _). destruct (Y c Ic) as [Y1 _]. contradiction. }
  rewrite Z. clear -Fl Ia Nm. induction Fl as [|ka kl m lists [E Pe] Fl IH]; [destruct Ia|]. cbn [map] in Nm. apply NoDup_cons_iff in Nm. destruct Nm as [N1 N2].
  cbn [map dget fst snd]. rewrite E. destruct (str_eqb k (fst ka)) eqn:F.
  - apply str_eqb_eq in F. exists (snd kl). split; [reflexivity|]. rewrite F. exact Pe.
  - apply (IH N2). destruct Ia as [->|Ia]; [|exact Ia]. cbn [fst] in F. rewrite str_eqb_refl in F. discriminate F.
Qed.
Print Assumptions c40_lists.

(** ** Examples *)
(** Words with a number, a flag, a list of tags and two list-valued foreign keys to sources. *)
Definition ex_dt t : option dtinfo := Some {| di_base := lit t; di_min := None; di_max := None; di_length := None; di_minLength := None; di_maxLength := None |}.
Definition ex_col n t sep : dcol := {| dc_header := lit n; dc_separator := sep; dc_inh_separator := sep; dc_required := false; dc_datatype := ex_dt t |}.
Definition ex_fk c r rc : dfk := {| dk_cols := [lit c]; dk_schema := false; dk_resource := lit r; dk_refcols := [lit rc] |}.
Definition ex_tables : list dtable :=
  [ {| dt_name := lit "words";
       dt_cols := [ex_col "id" "string" None; ex_col "n" "integer" None; ex_col "ok" "boolean" None; ex_col "tags" "string" (Some (lit ";"));
                   ex_col "src" "string" (Some (lit ";")); ex_col "alt" "string" (Some (lit ";"))];
       dt_fks := [ex_fk "src" "sources" "id"; ex_fk "alt" "sources" "id"]; dt_pk := [lit "id"] |};
    {| dt_name := lit "sources"; dt_cols := [ex_col "id" "string" None]; dt_fks := []; dt_pk := [lit "id"] |} ].
Definition ex_specs : list tablespec := Eval vm_compute in match schema true ex_tables with Ok l => l | Err _ => [] end.
Definition str s : pyval value := POne (VStr (lit s)).
Definition strs l : pyval value := PList (map (fun s => Some (VStr (lit s))) l).
Definition ex_word i n b tags src alt : drow :=
  [(lit "id", str i); (lit "n", POne (VInt n)); (lit "ok", POne (VBool b)); (lit "tags", strs tags); (lit "src", src); (lit "alt", alt)].
Definition ex_items : list (pystr * list drow) :=
  [(lit "words", [ex_word "1" 5 true ["x"%string; "y"%string] (strs ["b"%string; "a"%string]) PNone; ex_word "2" (-7) false [] (strs []) (strs ["a"%string]); ex_word "3" 0 true ["z"%string] PNone PNone]);
   (lit "sources", [[(lit "id", str "a")]; [(lit "id", str "b")]])].
Ltac clean_ := split; vm_compute; intuition discriminate.
Ltac in_list H := repeat (destruct H as [H|H]; [subst|]); [..|destruct H].
Example c39_nonvacuous :
  (forall l, Permutation (scan toy_store l) l) /\ (forall l, Permutation (group_scan toy_store l) l) /\
  schema true ex_tables = Ok ex_specs /\ tables_ok name_translator ex_specs /\ only_tables ex_specs ex_items /\
  (forall s, In s ex_specs -> rows_ok toy_py s (data ex_items s) /\ lists_ok name_translator s (data ex_items s)) /\
  (exists w u, In w ex_specs /\ ts_name w = lit "words" /\ free ex_specs w /\ In u ex_specs /\ ts_name u = lit "sources" /\ free ex_specs u) /\
  exists st D, write_file toy_py toy_store name_translator false false ex_specs ex_items None = (st, Some D, Ok tt) /\
    read toy_py toy_store name_translator D ex_specs [lit "words"; lit "sources"] =
    Ok [(lit "words", [ex_word "1" 5 true ["x"%string; "y"%string] (strs ["b"%string; "a"%string]) (strs []); ex_word "2" (-7) false [] (strs []) (strs ["a"%string]);
                       ex_word "3" 0 true ["z"%string] (strs []) (strs [])]);
        (lit "sources", [[(lit "id", str "a")]; [(lit "id", str "b")]])].
Proof.
  split; [intros l; apply Permutation_refl|]. split; [intros l; apply Permutation_refl|]. split; [vm_compute; reflexivity|]. split; [|split; [|split; [|split]]].
  - constructor.
    + vm_compute. repeat constructor; cbn; intuition discriminate.
    + intros s H. unfold ex_specs in H. in_list H; (split; [clean_|intros c Hc; cbn [ts_cols] in Hc; in_list Hc; (split; [clean_|]; try exact I; split; intros ? E; discriminate E)|discriminate|
        intros c Hc; cbn [ts_pk] in Hc; in_list Hc; clean_|intros fk Hf; cbn [ts_fks] in Hf; in_list Hf;
        (split; [discriminate|]; split; [discriminate|]; split; [intros c Hc; cbn in Hc; in_list Hc; clean_|]; split; [clean_|intros c Hc; cbn in Hc; in_list Hc; clean_])]).
    + intros s c H Hc. unfold ex_specs in H. in_list H; cbn [ts_cols] in Hc; in_list Hc; reflexivity.
    + intros s p H Hp. unfold ex_specs in H. in_list H; cbn [ts_pk ts_cols] in *; in_list Hp; vm_compute; auto.
    + intros s k a H Hk. unfold ex_specs in H. in_list H; cbn [ts_m2m ts_name] in *; in_list Hk; injection Hk as <- <-; (split; [vm_compute; auto 10|reflexivity]).
  - intros s k a H Hk. unfold ex_specs in H. in_list H; cbn [ts_m2m ts_name] in *; in_list Hk; injection Hk as <- <-; reflexivity.
  - intros s H. split.
    + apply c39_basic.
      * exists (match data ex_items s with r :: _ => map fst r | [] => [] end). unfold ex_specs in H. in_list H; vm_compute; (split; [repeat constructor; cbn; intuition discriminate|]);
          intros r Hr; in_list Hr; reflexivity.
      * intros r c Hr Hc. unfold ex_specs in H. in_list H; vm_compute in Hr; cbn [ts_cols] in Hc; in_list Hr; in_list Hc; vm_compute; try exact I; try (split; reflexivity);
          (split; [reflexivity|]; eexists; split; [reflexivity|]).
        -- exists [lit "x"; lit "y"]. split; [reflexivity|]. split; [discriminate|]. intros t Ht. vm_compute in Ht. in_list Ht; cbn; intuition discriminate.
        -- exists []. split; [reflexivity|]. split; [discriminate|intros t []].
        -- exists [lit "z"]. split; [reflexivity|]. split; [discriminate|]. intros t Ht. vm_compute in Ht. in_list Ht; cbn; intuition discriminate.
      * intros r c Hr Hc E. unfold ex_specs in H. in_list H; cbn [ts_cols] in Hc; in_list Hc; try discriminate E; split; try reflexivity; intros X; discriminate X.
    + unfold ex_specs in H. in_list H; constructor; cbn [ts_m2m ts_pk ts_cols]; try (left; reflexivity); try (solve [intros r k a _ []]); try (solve [split; [constructor|intros k a []]]).
      * right. eexists. split; [left; reflexivity|]. split; [reflexivity|]. split; [reflexivity|]. split; [reflexivity|]. intros r Hr. vm_compute in Hr. in_list Hr; eexists; vm_compute; reflexivity.
      * intros r k a Hr Hk. vm_compute in Hr. in_list Hr; in_list Hk; injection Hk as <- <-; try (left; vm_compute; reflexivity); right.
        -- exists [lit "b"; lit "a"]. split; [vm_compute; reflexivity|]. repeat constructor; cbn; try discriminate; intros c Hc; in_list Hc; reflexivity.
        -- exists []. split; [vm_compute; reflexivity|constructor].
        -- exists [lit "a"]. split; [vm_compute; reflexivity|]. repeat constructor; cbn; try discriminate; intros c Hc; in_list Hc; reflexivity.
      * split; [vm_compute; repeat constructor; cbn; intuition discriminate|]. intros k a Hk. in_list Hk; injection Hk as <- <-; (split; [reflexivity|]);
          (split; [intros c Hc; in_list Hc; vm_compute; split; discriminate|]); (split; [vm_compute; intuition discriminate|]); split; [vm_compute; intuition discriminate|reflexivity|vm_compute; intuition discriminate|reflexivity].
  - unfold ex_specs. eexists _, _. split; [left; reflexivity|]. split; [reflexivity|]. split; [|split; [right; left; reflexivity|split; [reflexivity|]]];
      intros s k a H Hk; in_list H; cbn [ts_m2m ts_name] in *; in_list Hk; injection Hk as <- <-; discriminate.
  - eexists _, _. split; [vm_compute; reflexivity|]. vm_compute. reflexivity.
Qed.

(** Rows whose keys come in another order than those of the first row: the values are stored in the wrong columns, without an error. *)
Definition ab_table : tablespec := {| ts_name := lit "t"; ts_cols := [toy_col "a" "string"; toy_col "b" "string"]; ts_fks := []; ts_m2m := []; ts_pk := [] |}.
Example c39_order_of_keys_refuted : exists st D,
  write_file toy_py toy_store name_translator false false [ab_table]
    [(lit "t", [[(lit "a", str "1"); (lit "b", str "2")]; [(lit "b", str "4"); (lit "a", str "3")]])] None = (st, Some D, Ok tt) /\
  read toy_py toy_store name_translator D [ab_table] [lit "t"] =
    Ok [(lit "t", [[(lit "a", str "1"); (lit "b", str "2")]; [(lit "a", str "4"); (lit "b", str "3")]])].
Proof. eexists _, _. split; vm_compute; reflexivity. Qed.
(** A list consisting of an empty string comes back as the empty list, and None in a list as an empty string. *)
Definition tag_table : tablespec :=
  {| ts_name := lit "t"; ts_cols := [new_colspec (lit "tags") (Some (lit "string")) (Some (lit ";")) false None]; ts_fks := []; ts_m2m := []; ts_pk := [] |}.
Example c39_empty_string_refuted : exists st D,
  write_file toy_py toy_store name_translator false false [tag_table]
    [(lit "t", [[(lit "tags", strs [""%string])]; [(lit "tags", PList [None; Some (VStr (lit "x"))])]; [(lit "tags", strs ["x;y"%string])]])] None = (st, Some D, Ok tt) /\
  read toy_py toy_store name_translator D [tag_table] [lit "t"] =
    Ok [(lit "t", [[(lit "tags", strs [])]; [(lit "tags", strs [""%string; "x"%string])]; [(lit "tags", strs ["x"%string; "y"%string])]])].
Proof. eexists _, _. split; vm_compute; reflexivity. Qed.
(** Columns of type time cannot be read, whatever text is stored (datatypes.py needs a format, and db.py gives none). *)
Definition time_table : tablespec := {| ts_name := lit "t"; ts_cols := [toy_col "at" "time"]; ts_fks := []; ts_m2m := []; ts_pk := [] |}.
Example c39_time_refuted : exists st D,
  write_file toy_py toy_store name_translator false false [time_table] [(lit "t", [[(lit "at", str "10:00:00")]])] None = (st, Some D, Ok tt) /\
  read toy_py toy_store name_translator D [time_table] [lit "t"] = Err AssertionError.
Proof. eexists _, _. split; vm_compute; reflexivity. Qed.
(** A table whose primary key is list-valued can be written, but not read: a list is not hashable. *)
Definition list_key_table : tablespec :=
  {| ts_name := lit "t"; ts_cols := [new_colspec (lit "id") (Some (lit "string")) (Some (lit ";")) false None]; ts_fks := []; ts_m2m := []; ts_pk := [lit "id"] |}.
Example c39_list_key_refuted : exists st D,
  write_file toy_py toy_store name_translator false false [list_key_table] [(lit "t", [[(lit "id", strs ["x"%string])]])] None = (st, Some D, Ok tt) /\
  read toy_py toy_store name_translator D [list_key_table] [lit "t"] = Err TypeError.
Proof. eexists _, _. split; vm_compute; reflexivity. Qed.
(** Keys with whitespace come back in parts, and since there is one context per key, as many parts as there were keys. *)
Definition ex_spaces : list (pystr * list drow) :=
  [(lit "words", [ex_word "1" 5 true [] (strs ["a b"%string]) (strs ["c"%string; "a b"%string])]);
   (lit "sources", [[(lit "id", str "a b")]; [(lit "id", str "c")]])].
Example c40_space_refuted : exists st D,
  write_file toy_py toy_store name_translator false false ex_specs ex_spaces None = (st, Some D, Ok tt) /\
  read toy_py toy_store name_translator D ex_specs [lit "words"] =
  Ok [(lit "words", [ex_word "1" 5 true [] (strs ["a"%string]) (strs ["c"%string; "a"%string])])].
Proof. eexists _, _. split; vm_compute; reflexivity. Qed.
(** Two list-valued foreign keys to the same table are kept apart by their context (see also c39_nonvacuous), a row without primary key is refused. *)
Example c40_contexts : exists st D,
  write_file toy_py toy_store name_translator false false ex_specs
    [(lit "words", [ex_word "1" 5 true [] (strs ["a"%string; "b"%string]) (strs ["b"%string])]); (lit "sources", [[(lit "id", str "a")]; [(lit "id", str "b")]])] None = (st, Some D, Ok tt) /\
  read toy_py toy_store name_translator D ex_specs [lit "words"] =
  Ok [(lit "words", [ex_word "1" 5 true [] (strs ["a"%string; "b"%string]) (strs ["b"%string])])].
Proof. eexists _, _. split; vm_compute; reflexivity. Qed.
Example c40_no_key : exists st D,
  write_file toy_py toy_store name_translator false false ex_specs
    [(lit "words", [ex_word "" 5 true [] (strs []) PNone]); (lit "sources", [])] None = (st, Some D, Err AssertionError).
Proof. eexists _, _. vm_compute; reflexivity. Qed.
