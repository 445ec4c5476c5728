(** csvw2datasette (C66). *)
From Coq Require Import Permutation.
From Verif Require Import PyStr Json Dsv DsvProofs4 Datatype Column Schema Table Zip Locate Files Meta MetaSpec MetaProofs MetaProofs2 Props_Meta Descr DescrProofs Load Group Sql Db DbSql DbSqlSpec DbSpec Sqlite DbWrite DbWriteSpec Cli
  TableProofs JsonText JsonTextSpec JsonTextProofs FrictionlessProofs2 ToSqlite ToSqliteSpec ToSqliteProofs1 ToSqliteProofs4 ToSqliteProofs7 Datasette.

Section P.
Variables (W : world value) (sc : scalars value) (expand : pystr -> dict value -> res pystr) (lim : N) (w : web) (env : fenv) (stem : pystr -> pystr) (P : py_fns) (St : store_fns) (bound_str : value -> pystr).
Notation source_of := (csvw_source W sc expand lim w env stem).

Lemma at_good fs b dl (t : ftable value) : NoDup (map tc_header (t_cols t)) -> (forall c n, In c (t_cols t) -> tc_header c <> col_n (Some n)) ->
  good_rows sc (t_cols t) (iter_at sc expand lim env fs b dl true false t).
Proof.
  intros Nd Nm. unfold iter_at. destruct (resolve _ _ _) as [u|p].
  - destruct (fe_get env u); [apply reader_good; assumption|constructor].
  - unfold iter_file. destruct (fs p) as [[]|]; try constructor; [apply iterdicts_good; assumption|]. destruct (fs (zip_path p)) as [[]|]; try constructor. destruct (filter _ _); [constructor|apply reader_good; assumption].
Qed.
(** a table that is read *)
Definition reads_as (fs : files) (k : ktable) (t : @gtable value) : Prop :=
  g_name t = url_of k /\ exists b dl, g_iter t false = iter_at sc expand lim env fs b dl true false (k_table k).
Lemma source_inv fs url s : source_of fs url = Ok s ->
  mapM (load_keyed (load_dtype W) true (so_group s)) (so_objects s) = Ok (so_keyed s) /\ Forall2 (reads_as fs) (so_keyed s) (so_tables s) /\
  exists op j C o, csvw_open w url None = Ok op /\ (if is_url url then from_url_data env stem url (op_md op) else Ok (JObj (op_md op))) = Ok j /\
    (C = TableGroup_class W \/ C = Table_class W) /\ fromvalue W C j = Ok o /\ so_common s = o_common o.
Proof.
  intros H. unfold csvw_source in H. apply bind_inv in H. destruct H as (op & Ho & H). apply bind_inv in H. destruct H as (j & Hj & H). destruct (op_group op).
  - apply bind_inv in H. destruct H as (o & Eo & H). apply bind_inv in H. destruct H as (u & _ & H). apply bind_inv in H. destruct H as (ts & Et & H). apply bind_inv in H. destruct H as (ks & Ek & H).
    apply Ok_inj in H. subst s. cbn [so_group so_objects so_keyed so_tables so_common]. split; [exact Ek|]. split; [|exists op, j, (TableGroup_class W), o; auto 6].
    unfold group_of in Et. unfold group_tables in Ek. destruct (nth 17 (o_vals o) (MJ JNull)); try discriminate Et. apply bind_inv in Et. destruct Et as (ks' & Ek' & Et).
    assert (ks' = ks) by (apply Ok_inj; rewrite <- Ek, <- Ek'; reflexivity). subst ks'. apply bind_inv in Et. destruct Et as (g & _ & Et). apply Ok_inj in Et. subst ts. clear.
    induction ks as [|k ks IH]; [constructor|]. cbn [map]. constructor; [|exact IH]. split; [reflexivity|]. eexists _, _. reflexivity.
  - apply bind_inv in H. destruct H as (o & Eo & H). apply bind_inv in H. destruct H as (t & Et & H). apply bind_inv in H. destruct H as (k & Ek & H).
    apply Ok_inj in H. subst s. cbn [so_group so_objects so_keyed so_tables so_common]. split; [cbn [mapM]; rewrite Ek; reflexivity|]. split; [|exists op, j, (Table_class W), o; auto 6].
    unfold Cli.table_of in Et. rewrite Ek in Et. cbn [bind] in Et. apply bind_inv in Et. destruct Et as (own & _ & Et). apply Ok_inj in Et. subst t. constructor; [|constructor]. split; [reflexivity|]. eexists _, _. reflexivity.
Qed.
Lemma named_by_url fs ks ts : Forall2 (reads_as fs) ks ts -> NoDup (map url_of ks) -> named_tables ts = combine (map url_of ks) ts.
Proof.
  intros F Nd. unfold named_tables. assert (E : map (fun t => (g_name t, t)) ts = combine (map url_of ks) ts).
  { clear Nd. induction F as [|k t ks ts [E _] F IH]; [reflexivity|]. cbn [map combine]. rewrite E, IH. reflexivity. }
  rewrite E. rewrite (dset_all_new str_eqb str_eqb_eq); [reflexivity|]. cbn [map app].
  assert (Em : map fst (combine (map url_of ks) ts) = map url_of ks). { clear -F. induction F; [reflexivity|]. cbn [map combine fst]. rewrite IHF. reflexivity. }
  rewrite Em. exact Nd.
Qed.
Lemma names_read fs ks ts : Forall2 (reads_as fs) ks ts -> NoDup (map url_of ks) -> map fst (named_tables ts) = map url_of ks.
Proof. intros F Nd. rewrite (named_by_url fs ks ts F Nd). clear Nd. induction F; [reflexivity|]. cbn [map combine fst]. rewrite IHF. reflexivity. Qed.
Lemma source_items fs ks ts items : Forall2 (reads_as fs) ks ts -> names_fit ks -> source_read ts = Ok items ->
  Forall2 (fun k nr => fst nr = url_of k /\ forall r, In r (snd nr) -> tdict sc (columns k) r /\ NoDup (map fst r)) ks items.
Proof.
  intros F Nf H. unfold source_read in H. rewrite (named_by_url fs ks ts F (nf_tables _ Nf)) in H.
  assert (X : forall k, In k ks -> NoDup (map tc_header (columns k)) /\ forall c n, In c (columns k) -> tc_header c <> col_n (Some n)).
  { intros k Ik. split; [apply (nf_headers _ Nf k Ik)|]. intros c n. apply (nf_named _ Nf k c n Ik). }
  clear Nf. revert items H. induction F as [|k t ks ts [E (b & dl & G)] F IH]; intros items H; cbn [map combine mapM] in H; [apply Ok_inj in H; subst; constructor|].
  apply bind_inv in H. destruct H as (x & Ex & H). apply bind_inv in H. destruct H as (l & El & H). apply Ok_inj in H. subst items. cbn [fst snd] in Ex. apply bind_inv in Ex. destruct Ex as (rows & Er & Ex). apply Ok_inj in Ex. subst x.
  constructor; [|apply IH; [intros k' I'; apply X; right; exact I'|exact El]]. split; [reflexivity|]. cbn [snd]. intros r I. rewrite G in Er. unfold all_rows in Er. destruct (io_end _); [discriminate Er|]. apply Ok_inj in Er. subst rows.
  apply in_map_iff in I. destruct I as ([ln d] & <- & I). destruct (X k (or_introl eq_refl)) as (X1 & X2). pose proof (at_good fs b dl (k_table k) X1 X2) as Gd. unfold good_rows in Gd. rewrite Forall_forall in Gd. apply (Gd _ I).
Qed.
Lemma source_dtables s tables : mapM (load_keyed (load_dtype W) true (so_group s)) (so_objects s) = Ok (so_keyed s) -> source_specs bound_str s = Ok tables ->
  exists ds, Forall2 (table_for W) ds (so_keyed s) /\ schema true ds = Ok tables.
Proof.
  intros Hk Ht. unfold source_specs in Ht. apply bind_inv in Ht. destruct Ht as (ds & Ed & Sc). exists ds. split; [|exact Sc]. apply (tables_for W bound_str true (so_group s) (so_objects s) (so_keyed s) Hk ds Ed).
Qed.
Lemma datasette_prepared fs url tables items common : datasette_prepare W sc expand lim w env stem bound_str fs url = Ok (tables, items, common) ->
  exists s, source_of fs url = Ok s /\ source_specs bound_str s = Ok tables /\ source_read (so_tables s) = Ok items /\ common = so_common s.
Proof.
  intros H. unfold datasette_prepare in H. apply bind_inv in H. destruct H as (s & Es & H). apply bind_inv in H. destruct H as (ts & Et & H). apply bind_inv in H. destruct H as (its & Ei & H). destruct (existsb _ its); [discriminate H|].
  apply Ok_inj in H. injection H as -> -> <-. exists s. auto.
Qed.

(** ** Common properties *)
Lemma post_common C o o' : C = TableGroup_class W \/ C = Table_class W -> cl_post C o = Ok o' -> o_common o' = o_common o.
Proof.
  assert (T : forall o o', tablelike_post W o = Ok o' -> o_common o' = o_common o).
  { clear. intros o o' H. unfold tablelike_post in H. destruct (skipn 11 (o_vals o)); [discriminate H|]. repeat (apply bind_inv in H; destruct H as (? & _ & H)). apply Ok_inj in H. subst o'. reflexivity. }
  intros [-> | ->] H; cbn [TableGroup_class Table_class cl_post] in H; [apply T, H|]. apply bind_inv in H. destruct H as (o1 & E & H). destruct (nth 16 _ _); try discriminate H. apply Ok_inj in H. subst o1. apply T, E.
Qed.
Lemma insert_perm x l : Permutation (insert_item x l) (x :: l).
Proof. induction l as [|y l IH]; [apply Permutation_refl|]. cbn [insert_item]. destruct (str_leb _ _); [apply Permutation_refl|]. etransitivity; [apply perm_skip, IH|apply perm_swap]. Qed.
Lemma sort_perm l : Permutation (sort_items l) l.
Proof. induction l as [|x l IH]; [apply Permutation_refl|]. unfold sort_items in *. cbn [fold_right]. etransitivity; [apply insert_perm|apply perm_skip, IH]. Qed.
Lemma dget_perm {V} (l l' : list (pystr * V)) k : NoDup (map fst l) -> Permutation l' l -> dget str_eqb l' k = dget str_eqb l k.
Proof.
  intros Nd Pm. assert (Nd' : NoDup (map fst l')) by (apply (Permutation_NoDup (Permutation_sym (Permutation_map fst Pm)) Nd)).
  destruct (dget str_eqb l' k) as [v|] eqn:E.
  - symmetry. apply dget_In_unique; [exact Nd|]. apply (Permutation_in _ Pm). apply dget_In_unique; assumption.
  - destruct (dget str_eqb l k) as [v|] eqn:E'; [|reflexivity]. apply dget_In_unique in E'; [|exact Nd]. apply (Permutation_in _ (Permutation_sym Pm)) in E'. apply dget_In_unique in E'; [|exact Nd']. congruence.
Qed.
Lemma common_of C kvs o k : C = TableGroup_class W \/ C = Table_class W -> wf_json (JObj kvs) -> fromvalue W C (JObj kvs) = Ok o ->
  (forall F, fate_of F true k = FCommon) -> dget str_eqb (o_common o) k = option_map (MetaSpec.clean (w_tag_ok W)) (dget str_eqb kvs k).
Proof.
  intros HC Wf H Fk. unfold fromvalue in H. apply bind_inv in H. destruct H as (r & Hr & H). destruct r as [po ws].
  destruct (c48_partition (w_tag_ok W) (all_names C) (cl_name C) true kvs Wf) as (_ & X). destruct (X _ _ Hr) as (-> & _). clear X Hr. cbn [fst] in H. unfold new_object in H.
  destruct (negb _); [discriminate H|]. apply bind_inv in H. destruct H as (vals & _ & H). apply (post_common C _ _ HC) in H. cbn [o_common p_common] in H. rewrite H. clear H vals ws o HC.
  apply wf_obj in Wf. destruct Wf as [Nd _]. generalize (all_names C). intros F. specialize (Fk F).
  assert (Nf : NoDup (map fst (expected_common (w_tag_ok W) F true kvs))).
  { unfold expected_common. rewrite map_map. cbn [fst]. unfold with_fate. clear -Nd. induction kvs as [|[a b] l IH]; [constructor|]. inversion Nd; subst. cbn [filter map]. destruct (fate_eq_dec _ _); [|apply IH; assumption]. cbn [map fst]. constructor; [|apply IH; assumption].
    intros I. apply H1. apply in_map_iff in I. destruct I as (x & <- & I). apply filter_In in I. apply in_map, I. }
  rewrite (dget_perm _ _ k Nf (sort_perm _)). unfold expected_common, with_fate. clear Nf Nd. induction kvs as [|[a b] l IH]; [reflexivity|]. cbn [filter dget]. cbn [fst]. destruct (str_eqb k a) eqn:E.
  - apply str_eqb_eq in E. subst a. rewrite Fk. destruct (fate_eq_dec FCommon FCommon) as [_|X]; [|contradiction X; reflexivity]. cbn [map dget fst snd]. rewrite str_eqb_refl. reflexivity.
  - destruct (fate_eq_dec _ _); cbn [map dget fst snd]; [rewrite E|]; exact IH.
Qed.
Lemma from_url_same url kvs j k : from_url_data env stem url kvs = Ok j -> (forall F, fate_of F true k = FCommon) -> exists kvs', j = JObj kvs' /\ dget str_eqb kvs' k = dget str_eqb kvs k.
Proof.
  intros H Fk. assert (K : k <> lit "@base" /\ k <> lit "tables" /\ k <> lit "tableSchema"). { repeat split; intros ->; specialize (Fk []); vm_compute in Fk; discriminate Fk. } destruct K as (K1 & K2 & K3).
  assert (Wb : dget str_eqb (with_base stem url kvs) k = dget str_eqb kvs k). { unfold with_base. destruct (dget str_eqb kvs (lit "@base")); [reflexivity|]. rewrite dget_app. destruct (dget str_eqb kvs k); [reflexivity|]. change (dget str_eqb [(lit "@base", JStr (stem url))] k) with (if str_eqb k (lit "@base") then Some (JStr (stem url)) else None). destruct (str_eqb k (lit "@base")) eqn:E; [apply str_eqb_eq in E; congruence|reflexivity]. }
  unfold from_url_data in H. destruct (dget str_eqb kvs (lit "tables")) as [v|].
  - destruct v; try discriminate H. apply bind_inv in H. destruct H as (l' & _ & H). apply Ok_inj in H. subst j. eexists. split; [reflexivity|]. rewrite dget_dset_other; [exact Wb|congruence].
  - unfold resolve_schema in H. destruct (dget str_eqb (with_base stem url kvs) (lit "tableSchema")) as [[]|]; try (apply Ok_inj in H; subst j; eexists; split; [reflexivity|exact Wb]).
    apply bind_inv in H. destruct H as (u & _ & H). apply Ok_inj in H. subst j. eexists. split; [reflexivity|]. rewrite dget_dset_other; [exact Wb|congruence].
Qed.
End P.
