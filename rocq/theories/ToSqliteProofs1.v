(** The tables of the database, by the descriptions of the tables (C65). *)
From Verif Require Import PyStr Json Dsv DsvProofs4 Datatype Column Schema Table Zip Files Descr DescrProofs Load Group Sql Db DbSql Sqlite DbWrite Cli FrictionlessProofs2 ToSqlite ToSqliteSpec.

Section P.
Variables (W : world value) (bound_str : value -> pystr) (csvw : bool).
Notation mobj := (mobj value).
Notation dtinfo_of := (dtinfo_of bound_str). Notation m_inherit := (m_inherit bound_str). Notation m_datatype := (m_datatype bound_str).
Notation dtable_of := (dtable_of bound_str).
Notation load_desc := (load_desc (load_dtype W)).

(** a column of the database, for a column of a table *)
Record col_for (d : dcol) (c : tcol value) : Prop := {
  cf_header : dc_header d = tc_header c;
  cf_own : dc_separator d = de_separator (c_desc (tc_col c));
  cf_sep : dc_inh_separator d = st_separator (tc_st c);
  cf_inh : forall x s, de_separator (c_desc (tc_col c)) = Some (x :: s) -> st_separator (tc_st c) = Some (x :: s);
  cf_some : st_separator (tc_st c) <> Some [];
  cf_type : cs_type (colspec_of d) = type_of c;
  cf_read : forall t, st_datatype (tc_st c) = Some t -> exists o, t = load_dtype W o;
}.
Lemma base_same o : di_base (dtinfo_of o) = Column.dt_base (load_dtype W o).
Proof.
  unfold ToSqlite.dtinfo_of, load_dtype. destruct (o_vals o) as [|v0 l]; [reflexivity|]. destruct v0 as [[]| | | | | | | | |]; try reflexivity.
  destruct l as [|v1 l]; [reflexivity|]. destruct v1; try reflexivity.
  do 10 (destruct l as [|? l]; [reflexivity|]). reflexivity.
Qed.
(** the same datatype *)
Definition same_type (a : option (option dtinfo)) (b : option (option (dtype value))) : Prop :=
  match a, b with
  | Some (Some i), Some (Some t) => exists o, i = dtinfo_of o /\ t = load_dtype W o
  | Some None, Some None => True
  | None, None => True
  | _, _ => False
  end.
Lemma load_datatype o d : load_desc o = Ok d -> same_type (m_datatype o) (de_datatype d).
Proof.
  unfold Load.load_desc, ToSqlite.m_datatype. destruct (o_vals o) as [|v0 l]; [discriminate|]. destruct l as [|v1 l]; [discriminate|]. do 9 (destruct l as [|? l]; [discriminate|]).
  intros H. repeat (apply bind_inv in H; destruct H as (? & _ & H)). apply Ok_inj in H. subst d. cbn [de_datatype nth a_datatype]. unfold a_datatype, same_type.
  destruct v1 as [[]| | | | | | | | |]; try exact I. exists o0. split; reflexivity.
Qed.
Lemma inherit_type : forall os ds o d, Forall2 (fun o d => load_desc o = Ok d) (o :: os) (d :: ds) ->
  match m_inherit (o :: os), getdef (inherit de_datatype d ds) None with
  | Some i, Some t => exists o, i = dtinfo_of o /\ t = load_dtype W o
  | None, None => True
  | _, _ => False
  end.
Proof.
  induction os as [|o' os IH]; intros ds o d F; inversion F as [|? ? ? ? L F']; subst; apply load_datatype in L.
  - inversion F'; subst. cbn. destruct (m_datatype o) as [[i|]|], (de_datatype d) as [[t|]|]; cbn in L |- *; try exact L; try contradiction.
  - inversion F' as [|? d' ? ds' L' F2]; subst. specialize (IH ds' o' d' F'). cbn [ToSqlite.m_inherit inherit] in IH |- *.
    destruct (m_datatype o) as [[i|]|], (de_datatype d) as [[t|]|]; cbn [same_type] in L; cbn [getdef]; try exact L; try contradiction. exact IH.
Qed.
Lemma col_same outer gs : Forall2 (fun o d => load_desc o = Ok d) outer gs -> forall o c t, load_column (load_dtype W) csvw o = Ok c -> tcol_of gs c = Ok t ->
  col_for (dcol_of (m_inherit (o :: outer), t)) t.
Proof.
  intros F o c t Lc Tc. unfold load_column in Lc. apply bind_inv in Lc. destruct Lc as (d & Ld & Lc). apply Ok_inj in Lc. subst c.
  unfold tcol_of in Tc. apply bind_inv in Tc. destruct Tc as (h & _ & Tc). apply Ok_inj in Tc. subst t.
  pose proof (inherit_type outer gs o d (Forall2_cons _ _ Ld F)) as T. constructor; cbn [dcol_of dc_header dc_separator dc_inh_separator tc_header tc_col tc_st c_desc fst snd]; try reflexivity.
  - intros x s E. cbn [settings_of st_separator]. destruct gs; cbn [inherit]; rewrite E; reflexivity.
  - cbn [settings_of st_separator]. unfold nonempty_opt. destruct (inherit de_separator d gs) as [[|]|]; discriminate.
  - unfold colspec_of, new_colspec. cbn [cs_type dc_datatype dcol_of fst]. unfold type_of. cbn [tc_st settings_of st_datatype].
    destruct (m_inherit (o :: outer)) as [i|], (getdef (inherit de_datatype d gs) None) as [t|]; try contradiction; [|reflexivity].
    destruct T as (x & -> & ->). rewrite base_same. reflexivity.
  - cbn [settings_of st_datatype]. intros t E. rewrite E in T. destruct (m_inherit (o :: outer)) as [i|]; [|contradiction]. destruct T as (x & _ & ->). exists x. reflexivity.
Qed.
Definition fk_for (d : dfk) (k : fkey) : Prop :=
  dk_cols d = fk_cols k /\ (dk_schema d = true <-> fk_schemaReference k <> None) /\ (dk_schema d = false -> fk_resource k = Some (dk_resource d)) /\ dk_refcols d = fk_refcols k.
Lemma fk_same k d : dfk_of k = Ok d -> fk_for d k.
Proof.
  unfold dfk_of, fk_for. destruct (fk_schemaReference k), (fk_resource k); intros H; try discriminate H; apply Ok_inj in H; subst d; cbn; repeat split; try discriminate; try reflexivity; intros E; exfalso; apply E; reflexivity.
Qed.
Record table_for (d : dtable) (k : ktable) : Prop := {
  tf_name : dt_name d = url_of k;
  tf_cols : Forall2 col_for (dt_cols d) (columns k);
  tf_fks : Forall2 fk_for (dt_fks d) (k_fks k);
  tf_pk : dt_pk d = key_columns k;
}.
Lemma load_keyed_for group table k d : load_keyed (load_dtype W) csvw group table = Ok k -> dtable_of group table k = Ok d -> table_for d k.
Proof.
  intros L D. unfold load_keyed in L. apply bind_inv in L. destruct L as (t & Lt & L). apply bind_inv in L. destruct L as (s & Ls & L). apply Ok_inj in L. subst k.
  unfold load_table in Lt. rewrite Ls in Lt. cbn [bind] in Lt. apply bind_inv in Lt. destruct Lt as (td & Ltd & Lt). apply bind_inv in Lt. destruct Lt as (gd & Lgd & Lt).
  assert (Fg : Forall2 (fun o d => load_desc o = Ok d) (match group with Some g => [g] | None => [] end) gd).
  { destruct group as [g|]; [|apply Ok_inj in Lgd; subst gd; constructor]. apply bind_inv in Lgd. destruct Lgd as (gd' & Lg & E). apply Ok_inj in E. subst gd. constructor; [exact Lg|constructor]. }
  apply bind_inv in Lt. destruct Lt as (cols & Lc & Lt). apply bind_inv in Lt. destruct Lt as (dl & _ & Lt). apply bind_inv in Lt. destruct Lt as (ctx & _ & Lt).
  destruct (nth 16 (o_vals table) (MJ JNull)); try discriminate Lt. apply Ok_inj in Lt. subst t.
  unfold table_schema in Ls. unfold ToSqlite.dtable_of in D. destruct (nth 14 (o_vals table) (MJ JNull)) as [| | | | | | | |so|]; try discriminate D. cbn [k_fks k_table t_url t_cols k_pk] in D.
  apply bind_inv in D. destruct D as (fks & Df & D). apply Ok_inj in D. subst d.
  unfold load_schema in Ls. assert (Sc : exists cols0 r, skipn 11 (o_vals so) = MObjs cols0 :: r /\ schema_columns so = cols0).
  { unfold schema_columns. destruct (skipn 11 (o_vals so)) as [|[] r]; try discriminate Ls. eexists _, _. split; reflexivity. }
  destruct Sc as (cols0 & r & Es & ->). rewrite Es in Ls. destruct r as [|[] r]; try discriminate Ls. destruct r as [|[] r]; try discriminate Ls. destruct r as [|? r]; try discriminate Ls. destruct r; try discriminate Ls.
  apply bind_inv in Ls. destruct Ls as (sd & Lsd & Ls). apply bind_inv in Ls. destruct Ls as (cs & Lcs & Ls). apply bind_inv in Ls. destruct Ls as (pk' & Lpk & Ls). apply bind_inv in Ls. destruct Ls as (fks' & Lf & Ls).
  apply Ok_inj in Ls. subst s. cbn [s_desc s_columns s_primaryKey s_foreignKeys] in *.
  constructor; cbn [dt_name dt_cols dt_fks dt_pk url_of columns key_columns k_table k_pk k_fks t_url t_cols]; try reflexivity.
  - unfold columns. cbn [k_table t_cols]. unfold tcols_of in Lc. cbn [s_desc s_columns] in Lc.
    assert (F : Forall2 (fun o d => load_desc o = Ok d) ([so; table] ++ match group with Some g => [g] | None => [] end) (sd :: td :: gd)) by (constructor; [assumption|constructor; assumption]).
    apply mapM_Forall2 in Lcs. apply mapM_Forall2 in Lc. clear -F Lcs Lc. revert cols Lc. induction Lcs as [|o c os cs' H Lcs IH]; intros cols Lc; inversion Lc; subst; cbn [map combine]; constructor.
    + apply (col_same _ _ F o c y H). assumption.
    + apply IH. assumption.
  - apply mapM_Forall2 in Df. clear -Df. induction Df; constructor; [apply fk_same; assumption|assumption].
Qed.
Lemma tables_for group ts ks : mapM (load_keyed (load_dtype W) csvw group) ts = Ok ks ->
  forall ds, mapM (fun x => dtable_of group (fst x) (snd x)) (combine ts ks) = Ok ds -> Forall2 table_for ds ks.
Proof.
  intros L. apply mapM_Forall2 in L. induction L as [|t k ts' ks' H L IH]; intros ds D; cbn [combine mapM] in D.
  - apply Ok_inj in D. subst. constructor.
  - apply bind_inv in D. destruct D as (d & Dd & D). apply bind_inv in D. destruct D as (ds' & Dd' & D). apply Ok_inj in D. subst. constructor; [apply (load_keyed_for _ _ _ _ H Dd)|apply (IH _ Dd')].
Qed.
End P.
