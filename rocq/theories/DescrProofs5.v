(** Tables and table groups survive serialisation. *)
From Coq Require Import Sorted Permutation Lia.
From Verif Require Import PyStr Dsv DsvProofs4 Json Dialects DialectProofs NatLang NatLangProofs ColumnSpec Datatype Column Meta MetaSpec MetaProofs MetaProofs2 MetaProofs3
  Descr DescrSpec DescrProofs DescrProofs2 DescrProofs3 DescrProofs4.

Section Fields.
Context {B : Type} (env : world B).
Hypothesis utf8_known : w_codec env (lit "utf-8") = CKnown.
Hypothesis fetched_wf : forall s j, w_fetch_schema env s = Some j -> wf_json j.
Notation tag_ok := (w_tag_ok env).
Notation field := (field B). Notation class := (class B). Notation mobj := (mobj B). Notation mval := (mval B).
Notation field_ok := (field_ok env).
Notation spec := (meta_dialect_spec env).

Definition dialect_value (v : mval) : Prop := v = MJ JNull \/ exists j a, v = MDialect a /\ new_dialect env j = Ok a.
Lemma dialect_rebuilt sub omit v : dialect_value v -> value_survives env sub (dialect_field env) v ->
  rebuilt omit (dialect_field env) v v.
Proof.
  intros [->|(j & a & -> & H)] V.
  - unfold rebuilt. destruct (omitted _ _ _); [reflexivity|]. exists JNull. split; reflexivity.
  - unfold rebuilt, omitted. cbn [equals_default]. rewrite andb_false_r. eexists. split; [reflexivity|].
    pose proof (dialect_rt env utf8_known j a H) as R. cbn [value_survives] in V.
    destruct (attrs_asdict spec true a) as [|x l] eqn:E.
    + elim V. exact R.
    + cbn [is_empty]. cbn [dialect_field fd_conv]. rewrite R. reflexivity.
Qed.
Definition sub_schema (sub : pystr -> mobj -> Prop) : Prop := forall x, sub (lit "tableSchema") x -> schema_survives env x.
Lemma schema_field_ok sub : sub_schema sub -> field_ok sub (schema_field env).
Proof.
  intros Ss omit v (j & Wj & Hc) V O. cbn [schema_field fd_conv] in Hc.
  assert (X : (exists s, v = MJ (JStr s) /\ w_fetch_schema env s = None) \/ exists w o, wf_json w /\ v = MObj o /\ fromvalue env (Schema_class env) w = Ok o).
  { unfold schema_fromvalue in Hc.
    assert (Y : forall w, wf_json w -> (o <- fromvalue env (Schema_class env) (match w with JObj _ => w | _ => JObj [] end) ;; Ok (MObj o)) = Ok v ->
       exists w o, wf_json w /\ v = MObj o /\ fromvalue env (Schema_class env) w = Ok o).
    { intros w Ww H. destruct (fromvalue env _ _) as [o|] eqn:E in H; [|discriminate H]. cbn [bind] in H. injection H as <-.
      eexists _, o. split; [|split; [reflexivity|exact E]]. destruct w; try exact Ww; apply wf_obj; (split; [apply NoDup_nil|intros k v []]). }
    destruct j as [| | | |s| |]; try (right; exact (Y _ Wj Hc)).
    destruct (w_fetch_schema env s) as [w|] eqn:Fs; [right; exact (Y _ (fetched_wf _ _ Fs) Hc)|]. injection Hc as <-. eauto. }
  clear Hc. destruct X as [(s & -> & Fs)|(w & o & Ww & -> & Ho)].
  - unfold rebuilt, omitted. cbn [schema_field fd_default equals_default py_eq num_of]. rewrite andb_false_r. exists (JStr s). split; [reflexivity|].
    cbn [is_empty schema_field fd_conv]. unfold schema_fromvalue. rewrite Fs. reflexivity.
  - cbn [value_survives schema_field fd_name] in V. apply Ss in V. unfold rebuilt, ser_ok, omitted in *. cbn [equals_default] in *.
    rewrite andb_false_r in *. destruct (O eq_refl) as [j' Hj]. exists j'. split; [exact Hj|]. cbn [schema_field fd_ser] in Hj.
    destruct (asdict (Schema_class env) true o) as [d|] eqn:E; [|discriminate Hj]. cbn [bind] in Hj. injection Hj as <-.
    pose proof (schema_rt env true w o d Ww Ho V E) as R. destruct d as [|x d]; cbn [is_empty].
    + cbn [schema_field fd_name fd_conv fd_default]. change (str_eqb (lit "tableSchema") (lit "null")) with false. cbv iota.
      unfold schema_fromvalue. rewrite R. reflexivity.
    + cbn [schema_field fd_conv]. unfold schema_fromvalue. rewrite R. reflexivity.
Qed.

Lemma table_direction_ok sub : field_ok sub
  {| fd_name := lit "tableDirection"; fd_default := JStr (lit "auto");
       fd_conv := fun j => match converter TStr (JStr (lit "auto")) false (str_in table_directions) j with
                           | JStr s => Ok (MJ (JStr s))
                           | _ => Err ValueError
                           end;
       fd_ser := ser_json |}.
Proof.
  apply json_field_ok; cbn [fd_ser fd_conv fd_default].
  - reflexivity.
  - intros j v H.
    pose proof (converter_idem TStr (JStr (lit "auto")) false (str_in table_directions) j) as I.
    destruct (converter TStr _ false _ j) as [| | | |s| |]; try discriminate H. injection H as <-. eexists. split; [reflexivity|].
    rewrite I; try discriminate; reflexivity.
  - intros j w _ H. right. apply py_eq_str, H.
  - reflexivity.
Qed.
Lemma transformations_ok sub : field_ok sub
  {| fd_name := lit "transformations"; fd_default := JList [];
     fd_conv := fun j => _ <- check_transformations env j ;; Ok (MJ j); fd_ser := ser_json |}.
Proof.
  apply json_field_ok; cbn [fd_ser fd_conv fd_default].
  - reflexivity.
  - intros j v H. destruct (check_transformations env j) as [[]|] eqn:E; [|discriminate H]. cbn [bind] in H. injection H as <-.
    eexists. split; [reflexivity|]. rewrite E. reflexivity.
  - intros j w _ H. right. apply py_eq_nil, H.
  - reflexivity.
Qed.
Lemma notes_ok sub : field_ok sub (plain (lit "notes") (JList []) (fun j => j)).
Proof.
  apply plain_ok; try reflexivity. intros j H. right. apply py_eq_nil, H.
Qed.

Definition rest_fields : list field := tl (skipn 11 (tablelike_fields env)).
Lemma tablelike_split : tablelike_fields env = description_fields env ++ dialect_field env :: rest_fields.
Proof. reflexivity. Qed.
Lemma rest_ok sub : sub_schema sub -> Forall (field_ok sub) rest_fields.
Proof.
  intros Ss. repeat (apply Forall_cons; [|]); try apply Forall_nil.
  - apply notes_ok.
  - apply table_direction_ok.
  - apply schema_field_ok, Ss.
  - apply transformations_ok.
  - apply link_field_ok.
Qed.

(** the common part of tables and groups: [x] is the attribute that is added to those of TableLike,
    [p] what becomes of the dialect *)
Lemma tablelike_gen sub (C : class) (x : field) omit d o d' p :
  cl_fields C = tablelike_fields env ++ [x] -> names_ok C -> wf_json (fd_default x) ->
  (forall o o', cl_post C o = Ok o' -> tablelike_post env o = Ok o') ->
  (forall o y z, cl_post C o = Ok y -> tablelike_post env z = Ok z -> skipn 12 (o_vals z) = skipn 12 (o_vals y) -> cl_post C z = Ok z) ->
  sub_datatype env sub -> sub_schema sub -> field_ok sub x ->
  wf_json d -> fromvalue env C d = Ok o -> obj_survives env sub C (set_dialect p o) ->
  (dialect_value (dialect_of o) -> rebuilt omit (dialect_field env) (dialect_of o) p /\ dialect_value p) ->
  asdict C omit o = Ok d' -> fromvalue env C (JObj d') = Ok (set_dialect p o).
Proof.
  intros HC HN Hx P1 P2 Sd Ss Fx W H V Hp E.
  assert (Wf : forall f, In f (cl_fields C) -> wf_json (fd_default f)).
  { rewrite HC. apply wf_defaults_app; [|repeat constructor; exact Hx]. apply Forall_app. split; [apply description_wf|].
    repeat (apply Forall_cons; [cbn; tauto|]); apply Forall_nil. }
  destruct (fromvalue_inv env _ _ _ W Wf H) as (common & at_ & vals & St & F & P). pose proof P as P'. apply P1 in P'.
  rewrite HC, tablelike_split, <- app_assoc in F. cbn [app] in F. apply F2_app_inv in F. destruct F as (dv & cv & -> & F1 & F2).
  assert (Ld : length dv = 11%nat) by (symmetry; exact (Forall2_length _ _ _ F1)).
  apply F2_cons in F2. destruct F2 as (dl & rest & -> & Cd & F2).
  rewrite tablelike_post_eq in P' by exact Ld.
  destruct (match dl with MJ (JStr s) => _ | _ => _ end) as [dl'|] eqn:Edl; [|discriminate P']. cbn [bind] in P'.
  destruct (at_post env at_) as [at2|] eqn:Ea; [|discriminate P']. cbn [bind] in P'. injection P' as <-.
  assert (Dv : dialect_value dl').
  { destruct Cd as (j & _ & Hc). cbn [dialect_field fd_conv] in Hc. clear - Hc Edl.
    destruct j as [| | | |s| |];
      try (destruct (new_dialect env _) as [a|] eqn:En in Hc; [|discriminate Hc]; cbn [bind] in Hc; injection Hc as <-; injection Edl as <-;
           right; eexists _, a; split; [reflexivity|exact En]).
    - injection Hc as <-. injection Edl as <-. left; reflexivity.
    - injection Hc as <-. destruct (w_fetch_dialect env s at_) as [jd|]; [|discriminate Edl]. cbn [bind] in Edl.
      destruct (new_dialect env jd) as [a|] eqn:En; [|discriminate Edl]. cbn [bind] in Edl. injection Edl as <-. right. eauto. }
  assert (Dof : dialect_of (MO None common at2 (dv ++ dl' :: rest)) = dl').
  { unfold dialect_of. cbn [o_vals]. rewrite app_nth2 by lia. rewrite Ld. reflexivity. }
  assert (Sk : forall v r, skipn 12 (dv ++ v :: r) = r).
  { intros v r. replace 12%nat with (length (dv ++ [v])) by (rewrite app_length, Ld; reflexivity).
    replace (dv ++ v :: r) with ((dv ++ [v]) ++ r) by (rewrite <- app_assoc; reflexivity). rewrite skipn_app, skipn_all, Nat.sub_diag. reflexivity. }
  assert (Fn : forall r : list mval, firstn 11 (dv ++ r) = dv) by (intros; rewrite <- Ld, firstn_app, firstn_all, Nat.sub_diag; cbn; apply app_nil_r).
  assert (Sof : set_dialect p (MO None common at2 (dv ++ dl' :: rest)) = MO None common at2 (dv ++ p :: rest)).
  { unfold set_dialect. cbn [o_vals o_num o_common o_at]. rewrite Sk, Fn. reflexivity. }
  rewrite Dof in Hp. destruct (Hp Dv) as [Rp Vp]. rewrite Sof in *.
  destruct (at_post_again env _ _ Ea) as (Ea2 & _ & _).
  assert (St2 : stored_ok env C common at2) by (eapply stored_post; [exact St|exact Ea|apply (sv_id _ _ _ _ V)]).
  destruct (survives_nonempty _ _ _ _ V) as [N1 N2]. cbn [o_common o_at] in N1, N2.
  assert (L : length (cl_fields C) = length (dv ++ dl' :: rest)).
  { rewrite HC, tablelike_split, <- app_assoc. cbn [app]. rewrite !app_length, Ld. cbn [length]. rewrite (Forall2_length _ _ _ F2). reflexivity. }
  destruct (asdict_inv _ _ _ _ E) as [attrs EA]. pose proof (asdict_ser_ok _ _ _ _ EA L) as S.
  rewrite (rebuild env C omit (MO None common at2 (dv ++ dl' :: rest)) d' (dv ++ p :: rest) HN St2 N1 N2 E L).
  - cbn [o_common o_at]. eapply P2; [exact P| |cbn [o_vals]; rewrite !Sk; reflexivity]. rewrite tablelike_post_eq by exact Ld.
    assert (Edl2 : match p with
       | MJ (JStr s) => j <- w_fetch_dialect env s at2 ;; a <- new_dialect env j ;; Ok (MDialect a)
       | _ => Ok p end = Ok p) by (destruct Vp as [->|(j & a & -> & _)]; reflexivity).
    rewrite Edl2. cbn [bind]. rewrite Ea2. reflexivity.
  - pose proof (sv_values _ _ _ _ V) as SV. cbn [o_vals] in *. rewrite HC, tablelike_split, <- app_assoc in *. cbn [app] in *.
    apply F2_split in SV; [|symmetry; exact Ld]. destruct SV as [SV1 SV2]. apply F2_split in S; [|symmetry; exact Ld]. destruct S as [S1 S2].
    rewrite combine_app by (symmetry; exact Ld). apply Forall2_app.
    + eapply fields_rebuilt; [|exact F1|exact SV1|exact S1]. apply description_fields_ok, Sd.
    + apply F2_cc in SV2, S2. destruct SV2 as [V1 SV2], S2 as [T1 S2]. cbn [combine]. apply Forall2_cons; [cbn [fst snd]; exact Rp|].
      eapply fields_rebuilt; [|exact F2|exact SV2|exact S2]. apply Forall_app. split; [apply rest_ok, Ss|repeat constructor; exact Fx].
Qed.

Lemma set_dialect_same (o : mobj) : length (o_vals o) = 18%nat -> set_dialect (dialect_of o) o = o.
Proof.
  destruct o as [n c a v]. cbn [o_vals]. intros L. unfold set_dialect, dialect_of. cbn [o_vals o_num o_common o_at]. f_equal.
  do 18 (destruct v as [|? v]; [discriminate L|]). destruct v; [reflexivity|discriminate L].
Qed.
Lemma tablelike_rt sub (C : class) (x : field) omit d o d' :
  cl_fields C = tablelike_fields env ++ [x] -> names_ok C -> wf_json (fd_default x) ->
  (forall o o', cl_post C o = Ok o' -> tablelike_post env o = Ok o') ->
  (forall o y z, cl_post C o = Ok y -> tablelike_post env z = Ok z -> skipn 12 (o_vals z) = skipn 12 (o_vals y) -> cl_post C z = Ok z) ->
  sub_datatype env sub -> sub_schema sub -> field_ok sub x ->
  wf_json d -> fromvalue env C d = Ok o -> obj_survives env sub C o ->
  asdict C omit o = Ok d' -> fromvalue env C (JObj d') = Ok o.
Proof.
  intros HC HN Hx P1 P2 Sd Ss Fx W H V E.
  assert (L : length (o_vals o) = 18%nat).
  { rewrite <- (Forall2_length _ _ _ (sv_values _ _ _ _ V)), HC. reflexivity. }
  rewrite <- (set_dialect_same o L).
  eapply (tablelike_gen sub C x omit d o d' (dialect_of o)); try eassumption.
  - rewrite (set_dialect_same o L). exact V.
  - intros D. split; [|exact D]. eapply dialect_rebuilt; [exact D|].
    pose proof (sv_values _ _ _ _ V) as SV. rewrite HC in SV. unfold dialect_of.
    destruct o as [n c a v]. cbn [o_vals] in *. do 18 (destruct v as [|? v]; [discriminate L|]).
    do 11 (apply F2_cc in SV; destruct SV as [_ SV]). apply F2_cc in SV. apply SV.
Qed.

Lemma table_names : names_ok (Table_class env).
Proof. split; vm_compute; reflexivity. Qed.
Lemma group_names : names_ok (TableGroup_class env).
Proof. split; vm_compute; reflexivity. Qed.

Lemma table_post_again (o y z : mobj) : cl_post (Table_class env) o = Ok y -> tablelike_post env z = Ok z ->
  skipn 12 (o_vals z) = skipn 12 (o_vals y) -> cl_post (Table_class env) z = Ok z.
Proof.
  intros H T E. cbn [Table_class cl_post] in *. destruct (tablelike_post env o) as [w|]; [|discriminate H]. cbn [bind] in H.
  assert (w = y) by (destruct (nth 16 (o_vals w) _); try discriminate H; congruence). subst w. rewrite T. cbn [bind].
  assert (Nx : forall v : list mval, nth 16 v (MJ JNull) = nth 4 (skipn 12 v) (MJ JNull)).
  { clear. intros v. do 12 (destruct v as [|? v]; [reflexivity|]). reflexivity. }
  rewrite Nx in *. rewrite E. destruct (nth 4 _ _); try discriminate H; reflexivity.
Qed.

Theorem table_rt omit d o d' : wf_json d -> fromvalue env (Table_class env) d = Ok o -> table_survives env o ->
  asdict (Table_class env) omit o = Ok d' -> fromvalue env (Table_class env) (JObj d') = Ok o.
Proof.
  eapply tablelike_rt; [reflexivity|apply table_names|exact I| | | | |].
  - intros x y H. cbn [Table_class cl_post] in H. destruct (tablelike_post env x) as [z|]; [|discriminate H]. cbn [bind] in H.
    destruct (nth 16 (o_vals z) _); try discriminate H; congruence.
  - apply table_post_again.
  - intros x [[D _]|[_ Hx]]; [discriminate D|exact Hx].
  - intros x [[_ Hx]|[D _]]; [exact Hx|discriminate D].
  - apply plain_ok; try reflexivity. auto.
Qed.

Lemma filter_none {A} (p : A -> bool) l : (forall x, In x l -> p x = false) -> filter p l = [].
Proof.
  induction l as [|y l IH]; intros H; [reflexivity|]. cbn [filter]. rewrite (H y (or_introl eq_refl)). apply IH. intros x Hx. apply H. right. exact Hx.
Qed.
Lemma py_eq_refl_default x : In x spec -> py_eq (a_default x) (a_default x) = true.
Proof.
  intros H. unfold meta_dialect_spec in H. apply in_app_iff in H. destruct H as [H|[<-|[]]]; [|reflexivity].
  apply filter_In in H. destruct H as [H _]. unfold dialect_spec in H. cbn [In] in H.
  repeat destruct H as [<-|H]; try reflexivity. destruct H.
Qed.

(** an explicit dialect that is the default dialect is lost *)
Theorem table_default_dialect omit d o d' a : wf_json d -> fromvalue env (Table_class env) d = Ok o ->
  dialect_of o = MDialect a -> attrs_init spec [] = Ok a -> table_survives env (set_dialect (MJ JNull) o) ->
  asdict (Table_class env) omit o = Ok d' -> fromvalue env (Table_class env) (JObj d') = Ok (set_dialect (MJ JNull) o).
Proof.
  intros W H Da Ia V E. eapply tablelike_gen; try eassumption; try reflexivity.
  - apply table_names.
  - intros x y Hx. cbn [Table_class cl_post] in Hx. destruct (tablelike_post env x) as [z|]; [|discriminate Hx]. cbn [bind] in Hx.
    destruct (nth 16 (o_vals z) _); try discriminate Hx; congruence.
  - apply table_post_again.
  - intros x [[D _]|[_ Hx]]; [discriminate D|exact Hx].
  - intros x [[_ Hx]|[D _]]; [exact Hx|discriminate D].
  - apply plain_ok; try reflexivity. auto.
  - intros _. split; [|left; reflexivity]. rewrite Da. unfold rebuilt, omitted. cbn [equals_default]. rewrite andb_false_r.
    exists (JObj []). split; [|reflexivity]. cbn [dialect_field fd_ser]. do 2 f_equal.
    unfold attrs_asdict. destruct (attrs_init_inv _ _ _ Ia) as (vals & -> & L & _ & All).
    rewrite (filter_none _ (combine (map a_name spec) vals)); [reflexivity|]. intros [k v] Hin.
    assert (X : exists x, In (x, v) (combine spec vals) /\ a_name x = k).
    { clear - Hin. revert vals Hin. induction spec as [|y l IH]; intros [|w vals] Hin; try destruct Hin; cbn [combine map] in *.
      - injection H as <- <-. exists y. split; [left; reflexivity|reflexivity].
      - destruct (IH _ H) as (x & X1 & X2). exists x. split; [right; exact X1|exact X2]. }
    destruct X as (x & Hx & <-). destruct (All _ _ Hx) as [Ix _]. cbn [fst snd andb]. apply in_combine_l in Hx.
    rewrite (find_name spec (spec_nodup env) x Hx). apply negb_false_iff.
    unfold init_attr in Ix. cbn [dget getdef] in Ix. destruct (spec_ok env utf8_known x Hx) as (_ & S2 & _). rewrite S2 in Ix. injection Ix as <-.
    apply py_eq_refl_default with (x := x), Hx.
Qed.

Lemma table_num d o : wf_json d -> fromvalue env (Table_class env) d = Ok o -> denum o = o.
Proof.
  intros W H. unfold fromvalue in H. destruct (partition_properties _ _ _ _ _) as [[[p|] ?]|] in H; try discriminate H. cbn [bind fst] in H.
  apply new_object_inv in H. destruct H as (vals & _ & _ & P). cbn [Table_class cl_post] in P.
  unfold tablelike_post in P. cbn [o_vals o_at o_num o_common] in P.
  repeat match type of P with
  | bind (bind ?x _) _ = Ok _ => destruct x as [?|] eqn:?; [cbn [bind] in P|discriminate P]
  | bind (match ?x with [] => _ | _ :: _ => _ end) _ = Ok _ => destruct x as [|dl rest]; [discriminate P|]
  | bind (Ok _) _ = Ok _ => cbn [bind] in P
  end.
  destruct (nth 16 _ _) in P; try discriminate P. injection P as <-. reflexivity.
Qed.
Definition sub_tables (sub : pystr -> mobj -> Prop) : Prop := forall x, sub (lit "tables") x -> table_survives env x.
Lemma tables_field_ok sub : sub_tables sub -> field_ok sub (tables_field env).
Proof.
  intros St omit v (j & Wj & Hc) V O.
  assert (X : exists ts, v = MObjs ts /\ Forall (fun o => exists d, wf_json d /\ fromvalue env (Table_class env) d = Ok o) ts).
  { cbn [tables_field fd_conv] in Hc. destruct j as [| | | | |l|]; try discriminate Hc; try (injection Hc as <-; eexists; split; [reflexivity|constructor]).
    destruct (mapM _ _) as [ts|] eqn:M; [|discriminate Hc]. cbn [bind] in Hc. injection Hc as <-. exists ts. split; [reflexivity|].
    apply mapM_Ok_inv in M. pose proof (proj1 (wf_list l) Wj) as Wl.
    assert (Wd : Forall (fun d => wf_json (JObj d)) (flat_map (fun x => match x with JObj d => [d] | _ => [] end) l)).
    { apply Forall_forall. intros d Hd. apply in_flat_map in Hd. destruct Hd as (x & Hx & Hd). destruct x; try destruct Hd. subst. apply Wl, Hx. contradiction. }
    revert Wd. clear - M. induction M as [|d o ds os H M IH]; intros Wd; constructor; apply Forall_cons_iff in Wd; [exists (JObj d); tauto|tauto]. }
  clear Hc. destruct X as (ts & -> & Ft). destruct ts as [|t0 ts0].
  { unfold rebuilt. destruct omit; cbn; [reflexivity|]. exists (JList []). split; reflexivity. }
  set (ts := t0 :: ts0) in *. unfold rebuilt, ser_ok, omitted in *.
  assert (Nn : equals_default (fd_default (tables_field env)) (MObjs ts) = false) by reflexivity.
  rewrite Nn, andb_false_r in *. destruct (O eq_refl) as [js Hjs]. exists js. split; [exact Hjs|]. cbn [tables_field fd_ser] in Hjs.
  destruct (mapM _ ts) as [jl|] eqn:Mj; [|discriminate Hjs]. cbn [bind] in Hjs. injection Hjs as <-.
  cbn [value_survives tables_field fd_name] in V.
  assert (PP : Forall (fun o => (exists d, wf_json d /\ fromvalue env (Table_class env) d = Ok o) /\ table_survives env o) ts).
  { apply Forall_forall. intros x Hx. rewrite Forall_forall in Ft, V. split; [apply Ft, Hx|apply St, V, Hx]. }
  assert (Dn : map denum ts = ts).
  { clear - Ft. induction Ft as [|x l (d & Wd & Hd) Ft IH]; [reflexivity|]. cbn [map]. rewrite IH, (table_num d x Wd Hd). reflexivity. }
  destruct (mapM_asdict_rt (Table_class env) omit (fromvalue env (Table_class env)) (fun o => (exists d, wf_json d /\ fromvalue env (Table_class env) d = Ok o) /\ table_survives env o))
    with (l := ts) (js := jl) as [(ds & ->) R]; [|exact PP|exact Mj|].
  { intros o d' [(d & Wd & Hd) Sv] Ed. rewrite (table_num d o Wd Hd). eapply table_rt; eassumption. }
  destruct ds as [|d ds]; [cbn [mapM map] in R; rewrite Dn in R; discriminate R|].
  cbn [map is_empty]. cbn [tables_field fd_conv].
  change (JObj d :: map JObj ds) with (map JObj (d :: ds)).
  assert (X : flat_map (fun x => match x with JObj d => [d] | _ => [] end) (map JObj (d :: ds)) = d :: ds).
  { clear. generalize (d :: ds). induction l as [|e l IH]; [reflexivity|]. cbn [map flat_map app]. rewrite IH. reflexivity. }
  rewrite X. assert (Y : mapM (fun d => fromvalue env (Table_class env) (JObj d)) (d :: ds) = Ok ts).
  { rewrite Dn in R. rewrite mapM_map in R. exact R. }
  rewrite Y. reflexivity.
Qed.

Theorem group_rt omit d o d' : wf_json d -> fromvalue env (TableGroup_class env) d = Ok o -> group_survives env o ->
  asdict (TableGroup_class env) omit o = Ok d' -> fromvalue env (TableGroup_class env) (JObj d') = Ok o.
Proof.
  eapply tablelike_rt; [reflexivity|apply group_names|exact I| | | | |].
  - intros x y H. exact H.
  - intros x y z _ H _. exact H.
  - intros x [[D _]|[[D _]|[_ Hx]]]; [discriminate D|discriminate D|exact Hx].
  - intros x [[D _]|[[_ Hx]|[D _]]]; [discriminate D|exact Hx|discriminate D].
  - apply tables_field_ok. intros x [[_ Hx]|[[D _]|[D _]]]; [exact Hx|discriminate D|discriminate D].
Qed.
End Fields.
