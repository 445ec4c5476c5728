(** Groups of tables whose dialects are the default dialect: these are forgotten. *)
From Coq Require Import Sorted Permutation Lia.
From Verif Require Import PyStr Dsv DsvProofs4 Json Dialects DialectProofs NatLang NatLangProofs ColumnSpec Datatype Column Meta MetaSpec MetaProofs MetaProofs2 MetaProofs3
  Descr DescrSpec DescrProofs DescrProofs2 DescrProofs3 DescrProofs4 DescrProofs5 ForgetSpec.

Section Forget.
Context {B : Type} (env : world B).
Hypothesis utf8_known : w_codec env (lit "utf-8") = CKnown.
Hypothesis fetched_wf : forall s j, w_fetch_schema env s = Some j -> wf_json j.
Notation field := (field B). Notation class := (class B). Notation mobj := (mobj B). Notation mval := (mval B).
Notation field_ok := (field_ok env).
Notation forgets := (forgets env).

Lemma table_forgets omit d o o' d' : wf_json d -> fromvalue env (Table_class env) d = Ok o -> forgets o o' -> table_survives env o' ->
  asdict (Table_class env) omit o = Ok d' -> fromvalue env (Table_class env) (JObj d') = Ok o'.
Proof.
  intros W H [->|(a & Da & Ia & ->)] S E.
  - eapply table_rt; eassumption.
  - eapply table_default_dialect; try eassumption.
Qed.
Lemma mapM_forgets omit : forall l l' js,
  Forall2 (fun o o' => (exists d, wf_json d /\ fromvalue env (Table_class env) d = Ok o) /\ forgets o o' /\ table_survives env o') l l' ->
  mapM (fun o => d <- asdict (Table_class env) omit o ;; Ok (JObj d)) l = Ok js ->
  exists ds, js = map JObj ds /\ mapM (fun d => fromvalue env (Table_class env) (JObj d)) ds = Ok l'.
Proof.
  induction l as [|o l IH]; intros l' js F E.
  - apply F2_nil in F. subst l'. injection E as <-. exists []. split; reflexivity.
  - apply F2_cons in F. destruct F as (o' & l'' & -> & ((d & Wd & Hd) & Fo & So) & F). cbn [mapM] in E.
    destruct (asdict _ omit o) as [d'|] eqn:Ed; [|discriminate E]. cbn [bind] in E.
    destruct (mapM _ l) as [js'|] eqn:El; [|discriminate E]. cbn [bind] in E. injection E as <-.
    destruct (IH l'' js' F eq_refl) as (ds & -> & M). exists (d' :: ds). split; [reflexivity|].
    cbn [mapM]. rewrite (table_forgets omit d o o' d' Wd Hd Fo So Ed). cbn [bind]. rewrite M. reflexivity.
Qed.
Lemma tables_rebuilt omit ts ts' : converted (tables_field env) (MObjs ts) -> Forall2 forgets ts ts' -> Forall (table_survives env) ts' ->
  ser_ok omit (tables_field env) (MObjs ts) -> rebuilt omit (tables_field env) (MObjs ts) (MObjs ts').
Proof.
  intros (j & Wj & Hc) Fo Sv O.
  assert (Ft : Forall (fun o => exists d, wf_json d /\ fromvalue env (Table_class env) d = Ok o) ts).
  { cbn [tables_field fd_conv] in Hc. destruct j as [| | | | |l|]; try discriminate Hc; try (injection Hc as <-; constructor).
    destruct (mapM _ _) as [us|] eqn:M; [|discriminate Hc]. cbn [bind] in Hc. injection Hc as <-.
    apply mapM_Ok_inv in M. pose proof (proj1 (wf_list l) Wj) as Wl.
    assert (Wd : Forall (fun d => wf_json (JObj d)) (flat_map (fun x => match x with JObj d => [d] | _ => [] end) l)).
    { apply Forall_forall. intros d Hd. apply in_flat_map in Hd. destruct Hd as (x & Hx & Hd). destruct x; try destruct Hd. subst. apply Wl, Hx. contradiction. }
    revert Wd. clear - M. induction M as [|d o ds os H M IH]; intros Wd; constructor; apply Forall_cons_iff in Wd; [exists (JObj d); tauto|tauto]. }
  clear Hc. destruct ts as [|t0 ts0].
  { apply F2_nil in Fo. subst ts'. unfold rebuilt. destruct omit; cbn; [reflexivity|]. exists (JList []). split; reflexivity. }
  set (ts := t0 :: ts0) in *. unfold rebuilt, ser_ok, omitted in *.
  assert (Nn : equals_default (fd_default (tables_field env)) (MObjs ts) = false) by reflexivity.
  rewrite Nn, andb_false_r in *. destruct (O eq_refl) as [js Hjs]. exists js. split; [exact Hjs|]. cbn [tables_field fd_ser] in Hjs.
  destruct (mapM _ ts) as [jl|] eqn:Mj; [|discriminate Hjs]. cbn [bind] in Hjs. injection Hjs as <-.
  destruct (mapM_forgets omit ts ts' jl) as (ds & -> & M); [|exact Mj|].
  { clear - Ft Fo Sv. revert Sv Ft. induction Fo as [|o o' l l' F1 F2 IH]; intros Sv Ft; constructor; apply Forall_cons_iff in Sv, Ft; tauto. }
  destruct ds as [|d ds].
  { destruct ts as [|x l]; [discriminate Nn|]. cbn [mapM map] in Mj. destruct (asdict _ omit x); [|discriminate Mj]. cbn [bind] in Mj.
    destruct (mapM _ l); discriminate Mj. }
  cbn [map is_empty]. cbn [tables_field fd_conv]. change (JObj d :: map JObj ds) with (map JObj (d :: ds)).
  assert (X : flat_map (fun x => match x with JObj d => [d] | _ => [] end) (map JObj (d :: ds)) = d :: ds).
  { clear. generalize (d :: ds). induction l as [|e l IH]; [reflexivity|]. cbn [map flat_map app]. rewrite IH. reflexivity. }
  rewrite X, M. reflexivity.
Qed.

Lemma dialect_forgets omit v p : dialect_value env v -> 
  (p = v /\ (forall a, v = MDialect a -> attrs_init (meta_dialect_spec env) [] <> Ok a) \/ exists a, v = MDialect a /\ new_dialect env (JObj []) = Ok a /\ p = MJ JNull) ->
  rebuilt omit (dialect_field env) v p /\ dialect_value env p.
Proof.
  intros V [[-> H]|(a & -> & Ia & ->)].
  - split; [|exact V]. apply (dialect_rebuilt env utf8_known (fun _ _ => True)); [exact V|].
    destruct V as [->|(j & a & -> & _)]; cbn [value_survives]; [|apply H; reflexivity]. split; intros X; [destruct X; discriminate|discriminate].
  - split; [|left; reflexivity]. unfold rebuilt, omitted. cbn [equals_default]. rewrite andb_false_r.
    exists (JObj []). split; [|reflexivity]. cbn [dialect_field fd_ser]. do 2 f_equal.
    change (new_dialect env (JObj [])) with (attrs_init (meta_dialect_spec env) []) in Ia.
    unfold attrs_asdict. destruct (attrs_init_inv _ _ _ Ia) as (vals & -> & L & _ & All).
    rewrite (filter_none _ (combine (map a_name (meta_dialect_spec env)) vals)); [reflexivity|]. intros [k v] Hin.
    assert (X : exists x, In (x, v) (combine (meta_dialect_spec env) vals) /\ a_name x = k).
    { clear - Hin. revert vals Hin. induction (meta_dialect_spec env) as [|y l IH]; intros [|w vals] Hin; try destruct Hin; cbn [combine map] in *.
      - injection H as <- <-. exists y. split; [left; reflexivity|reflexivity].
      - destruct (IH _ H) as (x & X1 & X2). exists x. split; [right; exact X1|exact X2]. }
    destruct X as (x & Hx & <-). destruct (All _ _ Hx) as [Ix _]. cbn [fst snd andb]. apply in_combine_l in Hx.
    rewrite (find_name _ (spec_nodup env) x Hx). apply negb_false_iff.
    unfold init_attr in Ix. cbn [dget getdef] in Ix. destruct (spec_ok env utf8_known x Hx) as (_ & S2 & _). rewrite S2 in Ix. injection Ix as <-.
    apply (py_eq_refl_default env) with (x := x), Hx.
Qed.

Theorem group_default_dialects omit d o o' d' : wf_json d -> fromvalue env (TableGroup_class env) d = Ok o ->
  group_forgets env o o' -> group_survives env o' ->
  asdict (TableGroup_class env) omit o = Ok d' -> fromvalue env (TableGroup_class env) (JObj d') = Ok o'.
Proof.
  intros W H (o1 & ts' & Fo & Ft & ->) V E.
  assert (Wf : forall f, In f (cl_fields (TableGroup_class env)) -> wf_json (fd_default f)).
  { apply wf_defaults_app; [|repeat constructor]. apply Forall_app. split; [apply description_wf|].
    repeat (apply Forall_cons; [cbn; tauto|]); apply Forall_nil. }
  destruct (fromvalue_inv env _ _ _ W Wf H) as (common & at_ & vals & St & F & P). pose proof P as P'.
  change (cl_fields (TableGroup_class env)) with (tablelike_fields env ++ [tables_field env]) in F.
  rewrite tablelike_split, <- app_assoc in F. cbn [app] in F. apply F2_app_inv in F. destruct F as (dv & cv & -> & F1 & F2).
  assert (Ld : length dv = 11%nat) by (symmetry; exact (Forall2_length _ _ _ F1)).
  apply F2_cons in F2. destruct F2 as (dl & rest & -> & Cd & F2). apply F2_app_inv in F2. destruct F2 as (rv & tv & -> & F2 & F3).
  assert (Lr : length rv = 5%nat) by (symmetry; exact (Forall2_length _ _ _ F2)).
  apply F2_cons in F3. destruct F3 as (tab & nil & -> & Ct & F3). apply F2_nil in F3. subst nil.
  cbn [cl_post TableGroup_class] in P'. rewrite tablelike_post_eq in P' by exact Ld.
  destruct (match dl with MJ (JStr s) => _ | _ => _ end) as [dl'|] eqn:Edl; [|discriminate P']. cbn [bind] in P'.
  destruct (at_post env at_) as [at2|] eqn:Ea; [|discriminate P']. cbn [bind] in P'. injection P' as <-.
  assert (Dv : dialect_value env dl').
  { destruct Cd as (j & _ & Hc). cbn [dialect_field fd_conv] in Hc. clear - Hc Edl.
    destruct j as [| | | |s| |];
      try (destruct (new_dialect env _) as [a|] eqn:En in Hc; [|discriminate Hc]; cbn [bind] in Hc; injection Hc as <-; injection Edl as <-;
           right; eexists _, a; split; [reflexivity|exact En]).
    - injection Hc as <-. injection Edl as <-. left; reflexivity.
    - injection Hc as <-. destruct (w_fetch_dialect env s at_) as [jd|]; [|discriminate Edl]. cbn [bind] in Edl.
      destruct (new_dialect env jd) as [a|] eqn:En; [|discriminate Edl]. cbn [bind] in Edl. injection Edl as <-. right. eauto. }
  do 11 (destruct dv as [|? dv]; [discriminate Ld|]). destruct dv; [|discriminate Ld].
  do 5 (destruct rv as [|? rv]; [discriminate Lr|]). destruct rv; [|discriminate Lr].
  assert (Tab : exists ts, tab = MObjs ts).
  { destruct Ct as (j & _ & Hc). cbn [tables_field fd_conv] in Hc. destruct j; try discriminate Hc; try (injection Hc as <-; eauto).
    destruct (mapM _ _); [|discriminate Hc]. injection Hc as <-. eauto. }
  destruct Tab as [ts ->]. cbn [app] in *.
  assert (X : exists p, (p = dl' /\ True \/ (exists a, dl' = MDialect a /\ new_dialect env (JObj []) = Ok a /\ p = MJ JNull)) /\ o1 = set_dialect p (MO None common at2 [m; m0; m1; m2; m3; m4; m5; m6; m7; m8; m9; dl'; m10; m11; m12; m13; m14; MObjs ts])).
  { destruct Fo as [->|(a & Da & Ia & ->)].
    - exists dl'. split; [left; split; [reflexivity|exact I]|reflexivity].
    - exists (MJ JNull). split; [right; exists a; split; [exact Da|split; [exact Ia|reflexivity]]|reflexivity]. }
  destruct X as (p & Hp & Eo1). unfold set_dialect in Eo1. cbn [o_vals o_num o_common o_at firstn skipn app] in Eo1. subst o1.
  unfold set_tables, tables_in in *. cbn [o_vals o_num o_common o_at firstn app nth] in *.
  set (o' := MO None common at2 _) in V |- *.
  pose proof (sv_values _ _ _ _ V) as SV.
  assert (HC : cl_fields (TableGroup_class env) = description_fields env ++ dialect_field env :: rest_fields env ++ [tables_field env]) by reflexivity.
  rewrite HC in SV. subst o'. cbn [o_vals] in SV.
  change [m; m0; m1; m2; m3; m4; m5; m6; m7; m8; m9; p; m10; m11; m12; m13; m14; MObjs ts'] with ([m; m0; m1; m2; m3; m4; m5; m6; m7; m8; m9] ++ p :: ([m10; m11; m12; m13; m14] ++ [MObjs ts'])) in SV.
  apply F2_split in SV; [|reflexivity]. destruct SV as [SV1 SV2]. apply F2_cc in SV2. destruct SV2 as [SVp SV2].
  apply F2_split in SV2; [|reflexivity]. destruct SV2 as [SV2 SV3]. apply F2_cc in SV3. destruct SV3 as [SV3 _].
  assert (Pp : p = dl' /\ (forall a, dl' = MDialect a -> attrs_init (meta_dialect_spec env) [] <> Ok a) \/ exists a, dl' = MDialect a /\ new_dialect env (JObj []) = Ok a /\ p = MJ JNull).
  { destruct Hp as [[-> _]|Hp]; [|right; exact Hp]. left. split; [reflexivity|]. intros a ->. exact SVp. }
  destruct (dialect_forgets omit dl' p Dv Pp) as [Rp Vp].
  destruct (at_post_again env _ _ Ea) as (Ea2 & _ & _).
  assert (St2 : stored_ok env (TableGroup_class env) common at2) by (eapply stored_post; [exact St|exact Ea|apply (sv_id _ _ _ _ V)]).
  destruct (survives_nonempty _ _ _ _ V) as [N1 N2]. cbn [o_common o_at] in N1, N2.
  set (o := MO None common at2 _) in E |- *.
  assert (L : length (cl_fields (TableGroup_class env)) = length (o_vals o)) by reflexivity.
  destruct (asdict_inv _ _ _ _ E) as [attrs EA]. pose proof (asdict_ser_ok _ _ _ _ EA L) as S.
  rewrite HC in S. cbn [o_vals] in S. unfold o in S. cbn [o_vals] in S.
  change [m; m0; m1; m2; m3; m4; m5; m6; m7; m8; m9; dl'; m10; m11; m12; m13; m14; MObjs ts] with ([m; m0; m1; m2; m3; m4; m5; m6; m7; m8; m9] ++ dl' :: ([m10; m11; m12; m13; m14] ++ [MObjs ts])) in S.
  apply F2_split in S; [|reflexivity]. destruct S as [S1 S2]. apply F2_cc in S2. destruct S2 as [_ S2].
  apply F2_split in S2; [|reflexivity]. destruct S2 as [S2 S3]. apply F2_cc in S3. destruct S3 as [S3 _].
  rewrite (rebuild env (TableGroup_class env) omit o d' [m; m0; m1; m2; m3; m4; m5; m6; m7; m8; m9; p; m10; m11; m12; m13; m14; MObjs ts'] (group_names env) St2 N1 N2 E L).
  - unfold o. cbn [o_common o_at cl_post TableGroup_class].
    change [m; m0; m1; m2; m3; m4; m5; m6; m7; m8; m9; p; m10; m11; m12; m13; m14; MObjs ts'] with ([m; m0; m1; m2; m3; m4; m5; m6; m7; m8; m9] ++ p :: [m10; m11; m12; m13; m14; MObjs ts']).
    rewrite tablelike_post_eq by reflexivity.
    assert (Edl2 : match p with
       | MJ (JStr s) => j <- w_fetch_dialect env s at2 ;; a <- new_dialect env j ;; Ok (MDialect a)
       | _ => Ok p end = Ok p) by (destruct Vp as [->|(j & a & -> & _)]; reflexivity).
    rewrite Edl2. cbn [bind]. rewrite Ea2. reflexivity.
  - rewrite HC. unfold o. cbn [o_vals].
    change [m; m0; m1; m2; m3; m4; m5; m6; m7; m8; m9; dl'; m10; m11; m12; m13; m14; MObjs ts] with ([m; m0; m1; m2; m3; m4; m5; m6; m7; m8; m9] ++ dl' :: ([m10; m11; m12; m13; m14] ++ [MObjs ts])).
    change [m; m0; m1; m2; m3; m4; m5; m6; m7; m8; m9; p; m10; m11; m12; m13; m14; MObjs ts'] with ([m; m0; m1; m2; m3; m4; m5; m6; m7; m8; m9] ++ p :: ([m10; m11; m12; m13; m14] ++ [MObjs ts'])).
    rewrite combine_app by reflexivity. apply Forall2_app.
    + eapply fields_rebuilt; [|exact F1|exact SV1|exact S1]. apply description_fields_ok.
      intros x [[D _]|[[D _]|[_ Hx]]]; [discriminate D|discriminate D|exact Hx].
    + cbn [combine]. apply Forall2_cons; [cbn [fst snd]; exact Rp|]. rewrite combine_app by reflexivity. apply Forall2_app.
      * eapply fields_rebuilt; [|exact F2|exact SV2|exact S2]. apply rest_ok; [exact fetched_wf|].
        intros x [[D _]|[[_ Hx]|[D _]]]; [discriminate D|exact Hx|discriminate D].
      * cbn [combine]. apply Forall2_cons; [|apply Forall2_nil]. cbn [fst snd]. apply tables_rebuilt; [exact Ct|exact Ft| |exact S3].
        cbn [value_survives tables_field fd_name] in SV3. eapply Forall_impl; [|exact SV3].
        intros x [[_ Hx]|[[D _]|[D _]]]; [exact Hx|discriminate D|discriminate D].
Qed.
End Forget.
