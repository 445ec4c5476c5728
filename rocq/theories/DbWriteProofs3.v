(** The tables of a new database, and what is in them after a write (C39, C40). *)
From Coq Require Import QArith Permutation.
From Verif Require Import PyStr Dsv DsvProofs4 Dec Dates Datatype Column Group Sql Db DbSql DbSqlSpec SqlProofs DbSqlProofs DbSqlProofs2
  Sqlite SqliteProofs DbWrite DbWriteSpec DbWriteProofs DbWriteProofs2.
Open Scope N_scope.

Section Db.
Variable P : py_fns.
Variable St : store_fns.
Variable tr : translator.

(** the key of a table, and the table *)
Definition tkey (s : tablespec) : pystr := ascii_lower (tr (ts_name s) None).
Definition new_table (s : tablespec) : table :=
  {| tb_name := tr (ts_name s) None; tb_cols := map (coldef_of tr (ts_name s)) (ts_cols s);
     tb_pk := map (fun c => tr (ts_name s) (Some c)) (ts_pk s);
     tb_fks := map (fun fk => (map (fun c => tr (ts_name s) (Some c)) (fst (fst fk)), tr (snd (fst fk)) None,
                     map (fun c => tr (snd (fst fk)) (Some c)) (snd fk))) (ts_fks s); tb_rows := [] |}.
Definition tabs (f : pystr -> list row) (ts : list tablespec) : db := map (fun s => with_rows (new_table s) (f (tkey s))) ts.
Definition plus (f : pystr -> list row) (k : pystr) (rows : list row) : pystr -> list row :=
  fun x => if str_eqb x k then f x ++ rows else f x.

Lemma tabs_find_none f ts n : ~ In (ascii_lower n) (map tkey ts) -> find_table n (tabs f ts) = None.
Proof.
  induction ts as [|s ts IH]; intros H; [reflexivity|]. unfold tabs, find_table in *. cbn [map find].
  change (tb_name (with_rows (new_table s) (f (tkey s)))) with (tr (ts_name s) None).
  destruct (same_name (tr (ts_name s) None) n) eqn:E.
  - exfalso. apply H. left. apply same_name_iff in E. exact E.
  - apply IH. intros X. apply H. right. exact X.
Qed.
Lemma tabs_find f ts s : NoDup (map tkey ts) -> In s ts -> find_table (tr (ts_name s) None) (tabs f ts) = Some (with_rows (new_table s) (f (tkey s))).
Proof.
  intros N H. induction ts as [|u ts IH]; [destruct H|]. cbn [map] in N. apply NoDup_cons_iff in N. destruct N as [N1 N2].
  unfold tabs, find_table in *. cbn [map find]. change (tb_name (with_rows (new_table u) (f (tkey u)))) with (tr (ts_name u) None).
  destruct H as [->|H]; [rewrite same_name_refl; reflexivity|].
  destruct (same_name (tr (ts_name u) None) (tr (ts_name s) None)) eqn:E; [|apply IH; assumption].
  exfalso. apply N1. apply same_name_iff in E. unfold tkey at 1. rewrite E. change (In (tkey s) (map tkey ts)). apply in_map, H.
Qed.
Lemma tabs_add f ts n rows : add_rows n rows (tabs f ts) = tabs (plus f (ascii_lower n) rows) ts.
Proof.
  unfold add_rows, tabs. rewrite map_map. apply map_ext. intros s. unfold plus.
  change (tb_name (with_rows (new_table s) (f (tkey s)))) with (tr (ts_name s) None). unfold same_name. fold (tkey s).
  destruct (str_eqb (tkey s) (ascii_lower n)); reflexivity.
Qed.
Lemma tabs_ext f g ts : (forall s, In s ts -> f (tkey s) = g (tkey s)) -> tabs f ts = tabs g ts.
Proof. intros H. apply map_ext_in. intros s Hs. rewrite (H s Hs). reflexivity. Qed.

(** *** creating the tables *)
Definition cols_distinct (s : tablespec) : Prop := distinct (map (fun c => tr (ts_name s) (Some (cs_name c))) (ts_cols s)) = true.
Lemma create_all_ok ts : (forall s, In s ts -> sql_clean tr s) -> forall done c c' f,
  c_work c = None -> c_disk c = tabs f done -> (forall k, f k = []) -> NoDup (map tkey (done ++ ts)) ->
  each (fun c s => execute St c (table_sql tr s)) c ts = (c', Ok tt) ->
  c_work c' = None /\ c_disk c' = tabs f (done ++ ts) /\ Forall cols_distinct ts.
Proof.
  induction ts as [|s ts IH]; intros Hc done c c' f Hw Hd Hf N H; cbn [each] in H.
  - injection H as <-. rewrite app_nil_r. auto.
  - unfold execute in H at 1. rewrite (create_parses tr s (Hc s (or_introl eq_refl))) in H. unfold create_of in H.
    match type of H with context [create ?a ?b ?c ?d ?e ?f] => destruct (create a b c d e f) as [D|e0] eqn:E end; [|discriminate H].
    apply create_inv in E. unfold current in E. rewrite Hw, Hd in E.
    assert (X : ~ In (ascii_lower (tr (ts_name s) None)) (map tkey done)).
    { rewrite map_app in N. cbn [map] in N. apply NoDup_remove_2 in N. intros X. apply N. apply in_or_app. left. exact X. }
    destruct E as [[_ [t E]]|(_ & E2 & _ & E3)]; [rewrite (tabs_find_none f done _ X) in E; discriminate E|].
    specialize (IH (fun u Hu => Hc u (or_intror Hu)) (done ++ [s]) (set_current c D) c' f).
    destruct IH as (I1 & I2 & I3).
    + unfold set_current. rewrite Hw. reflexivity.
    + unfold set_current. rewrite Hw. cbn [c_disk]. rewrite E3. unfold tabs. rewrite map_app. cbn [map]. rewrite Hf. reflexivity.
    + exact Hf.
    + rewrite <- app_assoc. exact N.
    + exact H.
    + rewrite <- app_assoc in I2. split; [exact I1|]. split; [exact I2|]. constructor; [|exact I3].
      unfold cols_distinct. rewrite <- E2. rewrite map_map. reflexivity.
Qed.

(** *** columns *)
Lemma index_of_none n l : index_of n l = None <-> forall m, In m l -> same_name m n = false.
Proof.
  induction l as [|m l IH]; cbn [index_of]; [split; [intros _ m []|reflexivity]|].
  destruct (same_name m n) eqn:E.
  - split; [discriminate|]. intros H. rewrite (H m (or_introl eq_refl)) in E. discriminate E.
  - destruct (index_of n l) as [i|]; split; try discriminate.
    + intros H. destruct IH as [_ IH]. discriminate IH. intros k Hk. apply H. right. exact Hk.
    + intros _ k [<-|Hk]; [exact E|]. apply (proj1 IH eq_refl), Hk.
    + reflexivity.
Qed.
Lemma distinct_inj (g : colspec -> pystr) l c d : distinct (map g l) = true -> In c l -> In d l -> same_name (g c) (g d) = true -> c = d.
Proof.
  induction l as [|x l IH]; intros D Hc Hd E; [destruct Hc|]. cbn [map distinct] in D. apply andb_true_iff in D. destruct D as [D1 D2].
  apply negb_true_iff in D1. unfold has_col in D1. destruct (index_of (g x) (map g l)) as [i|] eqn:F; [discriminate D1|].
  pose proof (proj1 (index_of_none _ _) F) as G. destruct Hc as [->|Hc], Hd as [->|Hd]; [reflexivity| | |apply IH; assumption].
  - exfalso. assert (X : same_name (g d) (g c) = false) by (apply G, in_map, Hd). rewrite same_name_sym in X. congruence.
  - exfalso. assert (X : same_name (g c) (g d) = false) by (apply G, in_map, Hc). congruence.
Qed.
Lemma col_inj s c d : cols_distinct s -> In c (ts_cols s) -> In d (ts_cols s) ->
  same_name (tr (ts_name s) (Some (cs_name c))) (tr (ts_name s) (Some (cs_name d))) = true -> c = d.
Proof. intros D. apply (distinct_inj (fun c => tr (ts_name s) (Some (cs_name c))) (ts_cols s) c d D). Qed.
Lemma col_inj_name s c d : cols_distinct s -> In c (ts_cols s) -> In d (ts_cols s) -> cs_name c = cs_name d -> c = d.
Proof. intros D Hc Hd E. apply (col_inj s c d D Hc Hd). rewrite E. apply same_name_refl. Qed.
Lemma distinct_nodup (g : colspec -> pystr) l : distinct (map g l) = true -> NoDup (map g l).
Proof.
  induction (map g l) as [|x m IH]; intros H; [constructor|]. cbn [distinct] in H. apply andb_true_iff in H. destruct H as [H1 H2].
  constructor; [|apply IH, H2]. intros X. apply negb_true_iff in H1. unfold has_col in H1. destruct (index_of x m) eqn:F; [discriminate|].
  pose proof (proj1 (index_of_none _ _) F x X) as G. rewrite same_name_refl in G. discriminate G.
Qed.
Lemma cols_nodup s : cols_distinct s -> NoDup (map cs_name (ts_cols s)).
Proof.
  intros H. apply (distinct_nodup (fun c => tr (ts_name s) (Some (cs_name c)))) in H. rewrite <- (map_map cs_name (fun n => tr (ts_name s) (Some n))) in H.
  apply NoDup_map_inv in H. exact H.
Qed.
Lemma cols_dict_eq s : cols_distinct s -> cols_dict s = map (fun c => (cs_name c, c)) (ts_cols s).
Proof.
  intros D. unfold cols_dict. rewrite (dset_all_new str_eqb str_eqb_eq); [reflexivity|]. cbn [map app]. rewrite map_map. apply cols_nodup, D.
Qed.
Lemma dget_mapped {A V} (g : A -> pystr) (h : A -> V) l k : dget str_eqb (map (fun c => (g c, h c)) l) k = option_map h (find (fun c => str_eqb k (g c)) l).
Proof. induction l as [|c l IH]; [reflexivity|]. cbn [map dget find]. destruct (str_eqb k (g c)); [reflexivity|exact IH]. Qed.
Lemma cols_dict_some s k c : cols_distinct s -> dget str_eqb (cols_dict s) k = Some c -> In c (ts_cols s) /\ cs_name c = k.
Proof.
  intros D. rewrite (cols_dict_eq s D), (dget_mapped cs_name (fun c => c)). destruct (find _ (ts_cols s)) as [d|] eqn:E; [|discriminate].
  intros H. injection H as ->. apply find_some in E. destruct E as [E1 E2]. apply str_eqb_eq in E2. auto.
Qed.
Lemma cols_dict_in s c : cols_distinct s -> In c (ts_cols s) -> dget str_eqb (cols_dict s) (cs_name c) = Some c.
Proof.
  intros D H. rewrite (cols_dict_eq s D), (dget_mapped cs_name (fun c => c)). destruct (find _ (ts_cols s)) as [d|] eqn:E.
  - apply find_some in E. destruct E as [E1 E2]. apply str_eqb_eq in E2. cbn. f_equal. apply (col_inj_name s d c D E1 H). auto.
  - exfalso. apply (find_none _ _ E c) in H. rewrite str_eqb_refl in H. discriminate H.
Qed.
End Db.
