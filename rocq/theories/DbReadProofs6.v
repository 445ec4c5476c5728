(** Reading all tables (C39, C40). *)
From Coq Require Import QArith Permutation.
From Verif Require Import PyStr Dsv DsvProofs4 Dec Dates Datatype Column Group GroupProofs1 Sql Db DbSql DbSqlSpec SqlProofs DbSqlProofs DbSqlProofs2
  Sqlite SqliteProofs DbWrite DbWriteSpec DbWriteProofs DbWriteProofs2 DbWriteProofs3 DbWriteProofs4 DbWriteProofs5 DbWriteProofs6
  DbReadProofs DbReadProofs2 DbReadProofs3 DbReadProofs4 DbReadProofs5.
Open Scope N_scope.

Section Db.
Variable P : py_fns.
Variable St : store_fns.
Variable tr : translator.
Variable tables : list tablespec.
Variable items : list (pystr * list drow).
Hypothesis Hscan : forall l, Permutation (scan St l) l.
Hypothesis Hgroup : forall l, Permutation (group_scan St l) l.
Hypothesis Ht : tables_ok tr tables.
Hypothesis Hrows : forall s, In s tables -> rows_ok P s (data items s).
Hypothesis Hlists : forall s, In s tables -> lists_ok tr s (data items s).
Variable D : db.
Variable h : pystr -> list row.
Hypothesis W : wrote P St tr tables items D h.

Lemma same_table s s' : In s tables -> In s' tables -> tr (ts_name s) None = tr (ts_name s') None -> s = s'.
Proof.
  intros I I' E. apply (nodup_map_inj (fun s => ascii_lower (tr (ts_name s) None)) tables); [exact (tk_names _ _ Ht)|exact I|exact I'|rewrite E; reflexivity].
Qed.
Lemma read_tables_ok (Q : tablespec -> list outrow -> Prop) ss : forall acc, NoDup (map ts_name ss) -> incl ss tables ->
  (forall s, In s ss -> exists out, read_table P St tr D tables (ts_name s) = Ok out /\ Q s out) ->
  (forall s, In s ss -> dget str_eqb acc (tr (ts_name s) None) = None) ->
  exists out, read_tables P St tr D tables (map ts_name ss) acc = Ok out /\
    (forall n, (forall s, In s ss -> tr (ts_name s) None <> n) -> dget str_eqb out n = dget str_eqb acc n) /\
    forall s, In s ss -> Q s (got_rows tr out (ts_name s)).
Proof.
  induction ss as [|s ss IH]; intros acc N H HQ Ha.
  - exists acc. split; [reflexivity|]. split; [reflexivity|]. intros s [].
  - cbn [map] in N. apply NoDup_cons_iff in N. destruct N as [N1 N2]. pose proof (H s (or_introl eq_refl)) as Is.
    destruct (HQ s (or_introl eq_refl)) as (out & Ro & Qs).
    cbn [map read_tables]. rewrite Ro. cbn [bind]. rewrite (Ha s (or_introl eq_refl)). cbn [app].
    set (acc' := match out with [] => acc | _ => dset str_eqb acc (tr (ts_name s) None) out end).
    assert (Dif : forall s', In s' ss -> tr (ts_name s') None <> tr (ts_name s) None).
    { intros s' I E. apply N1. rewrite <- (same_table s' s (H s' (or_intror I)) Is E). apply in_map, I. }
    destruct (IH acc' N2 (fun s' I => H s' (or_intror I)) (fun s' I => HQ s' (or_intror I))) as (res & R1 & R2 & R3).
    { intros s' I. unfold acc'. destruct out; [apply Ha; right; exact I|]. rewrite (dget_dset str_eqb str_eqb_eq).
      rewrite (proj2 (str_eqb_neq _ _) (Dif s' I)). apply Ha. right. exact I. }
    exists res. split; [exact R1|]. split.
    + intros n Hn. rewrite R2 by (intros s' I; apply Hn; right; exact I). unfold acc'. destruct out; [reflexivity|].
      rewrite (dget_dset str_eqb str_eqb_eq). rewrite (proj2 (str_eqb_neq _ _)); [reflexivity|]. intros E. apply (Hn s (or_introl eq_refl)). symmetry. exact E.
    + intros s' [<-|I]; [|apply R3, I]. unfold got_rows. rewrite R2 by (intros s' I; apply Dif, I).
      unfold acc'. destruct out as [|o out]; [rewrite (Ha s (or_introl eq_refl)); exact Qs|]. rewrite (dget_dset str_eqb str_eqb_eq), str_eqb_refl. exact Qs.
Qed.
Theorem read_ok ss : NoDup (map ts_name ss) -> (forall s, In s ss -> In s tables /\ free tables s) ->
  exists out, read P St tr D tables (map ts_name ss) = Ok out /\
    forall s, In s ss -> exists rows, Permutation rows (data items s) /\ Forall2 (row_back tr s) rows (got_rows tr out (ts_name s)).
Proof.
  intros N H. destruct (read_tables_ok (fun s out => exists rows, Permutation rows (data items s) /\ Forall2 (row_back tr s) rows out) ss [] N) as (out & R1 & _ & R3).
  - intros s I. apply H, I.
  - intros s I. destruct (H s I) as [Is Fs]. destruct (read_table_ok P St tr tables items Hscan Hgroup Ht Hrows Hlists D h W s Is Fs) as (out & rows & Ro & X).
    exists out. split; [exact Ro|]. exists rows. exact X.
  - reflexivity.
  - exists out. split; [exact R1|exact R3].
Qed.
Theorem read_exact ss : (forall l, scan St l = l) -> (forall l, group_scan St l = l) -> NoDup (map ts_name ss) -> (forall s, In s ss -> In s tables /\ free tables s) ->
  exists out, read P St tr D tables (map ts_name ss) = Ok out /\ forall s, In s ss -> Forall2 (row_exact tr s) (data items s) (got_rows tr out (ts_name s)).
Proof.
  intros Sc Gr N H. destruct (read_tables_ok (fun s out => Forall2 (row_exact tr s) (data items s) out) ss [] N) as (out & R1 & _ & R3).
  - intros s I. apply H, I.
  - intros s I. destruct (H s I) as [Is Fs]. apply (read_table_exact P St tr tables items Hgroup Ht Hrows Hlists D h W s Sc Gr Is Fs).
  - reflexivity.
  - exists out. split; [exact R1|exact R3].
Qed.
End Db.
