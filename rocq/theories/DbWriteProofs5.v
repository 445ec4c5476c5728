(** Values read back, and the contents of the tables after a write (C39). *)
From Coq Require Import QArith Permutation.
From Verif Require Import PyStr Dsv DsvProofs4 Dec Dates Datatype Column Group Sql Db DbSql DbSqlSpec SqlProofs DbSqlProofs DbSqlProofs2
  Sqlite SqliteProofs DbWrite DbWriteSpec DbWriteProofs DbWriteProofs2 DbWriteProofs3 DbWriteProofs4.
Open Scope N_scope.

Section Db.
Variable P : py_fns.
Variable St : store_fns.
Variable tr : translator.

Lemma bind_text_ok s u : bind_text s = Ok u -> u = SText s.
Proof. unfold bind_text. destruct (existsb surrogate s); [discriminate|]. intros H. apply Ok_inj in H. auto. Qed.
Lemma list_items_str ts : mapM list_item (map (fun t => Some (VStr t)) ts) = Ok ts.
Proof. induction ts as [|t ts IH]; [reflexivity|]. cbn [map mapM list_item bind]. rewrite IH. reflexivity. Qed.
Lemma is_type_eq t n : is_type t n = true -> t = n.
Proof. apply str_eqb_eq. Qed.
Lemma join_empty sep ts : join sep ts = [] -> sep <> [] -> ts = [] \/ ts = [[]].
Proof.
  intros H N. destruct ts as [|t [|t2 ts]]; auto.
  - cbn in H. subst. auto.
  - change (t ++ sep ++ join sep (t2 :: ts) = []) in H. apply app_eq_nil in H. destruct H as [_ H]. apply app_eq_nil in H. tauto.
Qed.
Lemma read_back c pv v : cs_db_type c = db_type (cs_type c) (cs_separator c) -> value_ok P c pv -> cell_stored P St c (Some pv) v -> read_value P c v = Ok pv.
Proof.
  intros T V (b & u & C & B & ->). destruct pv as [|x|l].
  - cbn in C. apply Ok_inj in C. subst b. cbn in B. apply Ok_inj in B. subst u. replace (affinity St (cs_db_type c) SNull) with SNull by (destruct (cs_db_type c); reflexivity). reflexivity.
  - destruct V as [Vs V]. cbn [cell_value] in C. rewrite T. unfold db_type. rewrite Vs.
    assert (Rd : forall w, w <> SNull -> read_value P c w = (r <- read_one P (cs_type c) w ;; Ok (POne r))).
    { intros w Hw. unfold read_value. destruct w; [contradiction| | | |]; destruct (cs_separator c) as [[|c0 sep]|]; try reflexivity; discriminate Vs. }
    unfold convert, identity_type in C. unfold is_type in *.
    destruct (str_eqb (cs_type c) (lit "string")) eqn:Es.
    { destruct V as [t ->]. apply Ok_inj in C. subst b. apply bind_text_ok in B. subst u. apply str_eqb_eq in Es.
      rewrite Es. change (str_eqb (lit "string") (lit "integer") || str_eqb (lit "string") (lit "boolean")) with false.
      change (str_eqb (lit "string") (lit "decimal")) with false. change (str_eqb (lit "string") (lit "hexBinary")) with false. cbn [affinity].
      rewrite Rd by discriminate. rewrite Es. reflexivity. }
    destruct (str_eqb (cs_type c) (lit "integer")) eqn:Ei.
    { destruct V as [z ->]. apply Ok_inj in C. subst b. cbn [bind_value] in B. destruct (int64 z); [|discriminate B]. apply Ok_inj in B. subst u.
      cbn [orb affinity]. rewrite Rd by discriminate. unfold read_one, identity_type, is_type. rewrite Es, Ei. reflexivity. }
    destruct (str_eqb (cs_type c) (lit "hexBinary")) eqn:Eh.
    { destruct V as [t ->]. apply Ok_inj in C. subst b. apply Ok_inj in B. subst u. apply str_eqb_eq in Eh. 
      assert (A : affinity St (if false || str_eqb (cs_type c) (lit "boolean") then INTEGER else if str_eqb (cs_type c) (lit "decimal") then REAL else BLOB) (SBlob t) = SBlob t).
      { destruct (false || str_eqb (cs_type c) (lit "boolean")); [reflexivity|]. destruct (str_eqb (cs_type c) (lit "decimal")); reflexivity. }
      rewrite A. rewrite Rd by discriminate. rewrite Eh. reflexivity. }
    cbn [orb] in C. destruct (str_eqb (cs_type c) (lit "boolean")) eqn:Eb.
    { destruct V as [t ->]. apply Ok_inj in C. subst b. cbn [orb].
      assert (U : u = SInt (if t then 1 else 0)) by (destruct t; cbn in B; apply Ok_inj in B; auto). subst u. cbn [affinity]. rewrite Rd by discriminate.
      unfold read_one, identity_type, is_type. rewrite Es, Ei, Eh, Eb. destruct t; reflexivity. }
    cbn [orb]. destruct (str_eqb (cs_type c) (lit "decimal")) eqn:Ed.
    { apply bind_ok in C. destruct C as (q & Cq & C). apply Ok_inj in C. subst b. apply Ok_inj in B. subst u. cbn [affinity]. rewrite Rd by discriminate.
      unfold read_one, identity_type, is_type. rewrite Es, Ei, Eh, Eb, Ed. cbn [orb]. rewrite (V q Cq). reflexivity. }
    { destruct V as [Vt V]. apply bind_ok in C. destruct C as (t & Ct & C). apply Ok_inj in C. subst b. apply bind_text_ok in B. subst u. cbn [affinity]. rewrite Rd by discriminate.
      unfold read_one, identity_type, is_type. rewrite Es, Ei, Eh, Eb, Ed, Vt. cbn [orb]. rewrite (V t Ct). reflexivity. }
  - destruct V as (c0 & sep & Hs & V). cbn [cell_value] in C. rewrite T. unfold db_type. rewrite Hs in *. cbn [opt_true str_true] in *.
    destruct (is_type (cs_type c) (lit "string")) eqn:Es.
    + destruct V as (ts & -> & V). rewrite list_items_str in C. cbn [bind] in C. apply Ok_inj in C. subst b. apply bind_text_ok in B. subst u. cbn [affinity].
      unfold read_value. rewrite Hs. cbn [sv_true]. destruct (join (c0 :: sep) ts) as [|x t] eqn:J.
      * destruct (join_empty _ _ J) as [->| ->]; [discriminate|reflexivity|]. destruct V as [V|[V _]]; [discriminate V|contradiction V; reflexivity].
      * rewrite Es. destruct V as [->|[_ V]]; [discriminate J|]. rewrite V. reflexivity.
    + apply bind_ok in C. destruct C as (t & Ct & C). apply Ok_inj in C. subst b. apply bind_text_ok in B. subst u. cbn [affinity].
      destruct (V t Ct) as [V1 V2]. unfold read_value. rewrite Hs, Es. cbn [sv_true]. destruct t as [|x t]; [contradiction V1; reflexivity|]. exact V2.
Qed.
Lemma stored_null c pv v : cs_db_type c = db_type (cs_type c) (cs_separator c) -> cs_db_type c = INTEGER -> value_ok P c pv -> pv <> PNone ->
  cell_stored P St c (Some pv) v -> v <> SNull.
Proof.
  intros T I V N S E. pose proof (read_back c pv v T V S) as R. subst v. cbn in R. apply Ok_inj in R. congruence.
Qed.

(** *** integer primary keys are given *)
Lemma index_of_cols (g : colspec -> pystr) l n i : index_of n (map g l) = Some i -> exists c, nth_error l i = Some c /\ same_name (g c) n = true.
Proof.
  revert i. induction l as [|c l IH]; intros i H; [discriminate H|]. cbn [map index_of] in H. destruct (same_name (g c) n) eqn:E.
  - injection H as <-. exists c. auto.
  - destruct (index_of n (map g l)) as [j|]; [|discriminate H]. injection H as <-. apply IH. reflexivity.
Qed.
Lemma Forall2_nth {A B} (R : A -> B -> Prop) l m i a (d : B) : Forall2 R l m -> nth_error l i = Some a -> R a (nth i m d).
Proof.
  intros H. revert i. induction H as [|x y l m Hxy H IH]; intros i E; [destruct i; discriminate E|].
  destruct i as [|i]; cbn in *; [injection E as <-; exact Hxy|apply IH, E].
Qed.
Lemma row_numbered s rows r x : cols_distinct tr s -> (forall c, In c (ts_cols s) -> cs_db_type c = db_type (cs_type c) (cs_separator c)) ->
  (forall p, In p (ts_pk s) -> In p (map cs_name (ts_cols s))) ->
  rows_ok P s rows -> In r rows -> (exists pk, row_pk s r = Ok pk) -> row_stored P St s r x -> forall more, numbered (with_rows (new_table tr s) more) x.
Proof.
  intros D T K Hr Ir [pk Hpk] S more i A. unfold alias, with_rows, new_table in A. cbn [tb_pk tb_cols col_names] in A. unfold col_names in A. cbn [tb_cols] in A.
  destruct (ts_pk s) as [|p [|p2 ps]] eqn:Ep; cbn [map] in A; try discriminate A.
  rewrite map_map in A. cbn [coldef_of cd_name] in A.
  destruct (index_of (tr (ts_name s) (Some p)) (map (fun c => tr (ts_name s) (Some (cs_name c))) (ts_cols s))) as [j|] eqn:Ej; [|discriminate A].
  destruct (index_of_cols (fun c => tr (ts_name s) (Some (cs_name c))) _ _ _ Ej) as (c & Ec & Sc). rewrite nth_error_map, Ec in A. cbn [option_map coldef_of cd_type] in A.
  assert (X : i = j /\ cs_db_type c = INTEGER) by (destruct (cs_db_type c); try discriminate A; injection A as <-; auto). destruct X as [-> It]. clear A.
  assert (Ic : In c (ts_cols s)) by (eapply nth_error_In; exact Ec).
  assert (Pc : p = cs_name c).
  { assert (Ip : In p (map cs_name (ts_cols s))) by (apply K; left; reflexivity).
    apply in_map_iff in Ip. destruct Ip as (d & Ed & Id). rewrite <- Ed in Sc. apply (col_inj tr s c d D Ic Id) in Sc. subst d. auto. }
  subst p. destruct (rk_pk _ _ _ Hr r c Ir Ic Ep) as [_ Hn]. specialize (Hn It).
  unfold row_pk in Hpk. rewrite Ep in Hpk. destruct (dget str_eqb r (cs_name c)) as [pv|] eqn:G; [|discriminate Hpk].
  pose proof (Forall2_nth _ _ _ j c SNull S Ec) as Z. cbn beta in Z. rewrite G in Z. unfold value_at.
  pose proof (rk_values _ _ _ Hr r c Ir Ic) as V. unfold value_or_none in V. rewrite G in V.
  apply (stored_null c pv _ (T c Ic) It V); [congruence|exact Z].
Qed.
End Db.
