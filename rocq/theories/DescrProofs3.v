(** Columns and schemas survive serialisation. *)
From Coq Require Import Sorted Permutation.
From Verif Require Import PyStr Dsv Json Dialects DialectProofs NatLang NatLangProofs ColumnSpec Datatype Column Meta MetaSpec MetaProofs MetaProofs2 MetaProofs3
  Descr DescrSpec DescrProofs DescrProofs2.

Section Fields.
Context {B : Type} (env : world B).
Notation tag_ok := (w_tag_ok env).
Notation field := (field B). Notation class := (class B). Notation mobj := (mobj B). Notation mval := (mval B).
Notation field_ok := (field_ok env).

Lemma fields_rebuilt sub omit : forall fs ws, Forall (field_ok sub) fs -> Forall2 converted fs ws ->
  Forall2 (value_survives env sub) fs ws -> Forall2 (ser_ok omit) fs ws ->
  Forall2 (fun (fw : field * mval) p => rebuilt omit (fst fw) (snd fw) p) (combine fs ws) ws.
Proof.
  induction fs as [|f fs IH]; intros ws F C V S.
  - apply F2_nil in C. subst ws. constructor.
  - apply F2_cons in C. destruct C as (w & ws' & -> & C1 & C2). apply F2_cc in V, S. apply Forall_cons_iff in F.
    cbn [combine]. constructor; [|apply IH; tauto]. cbn [fst snd]. apply F; tauto.
Qed.

Definition sub_datatype (sub : pystr -> mobj -> Prop) : Prop := forall x, sub (lit "datatype") x -> datatype_survives env x.

Lemma falsy_eq_null j : truthy j = false -> py_eq j JNull = true -> j = JNull.
Proof. intros _. apply py_eq_null. Qed.
Lemma datatype_field_ok sub : sub_datatype sub -> field_ok sub (datatype_field env).
Proof.
  intros Sd omit v (j & Wj & Hc) V O. cbn [datatype_field fd_conv] in Hc. destruct (truthy j) eqn:T.
  - destruct (datatype_fromvalue env j) as [o|] eqn:Ho; [|discriminate Hc]. cbn [bind] in Hc. injection Hc as <-.
    cbn [value_survives datatype_field fd_name] in V. apply Sd in V. unfold rebuilt, omitted.
    cbn [equals_default]. rewrite andb_false_r. unfold ser_ok, omitted in O. cbn [equals_default] in O. rewrite andb_false_r in O.
    destruct (O eq_refl) as [j' Hj]. exists j'. split; [exact Hj|]. cbn [datatype_field fd_ser] in Hj.
    destruct (datatype_rt env j o j' Wj Ho V Hj) as (H1 & H2 & H3).
    assert (Em : is_empty j' = false). { destruct j' as [| | | | |[|]|[|]]; try reflexivity; discriminate H2. }
    rewrite Em. cbn [datatype_field fd_conv]. rewrite H2, H1. reflexivity.
  - injection Hc as <-. cbn [value_survives datatype_field fd_name fd_default] in V. destruct V as [V _].
    unfold rebuilt. destruct (omitted omit (datatype_field env) (MJ j)) eqn:Om.
    + unfold omitted in Om. apply andb_true_iff in Om. destruct Om as [_ Om]. cbn [equals_default datatype_field fd_default] in Om.
      apply py_eq_null in Om. subst j. reflexivity.
    + exists j. split; [reflexivity|]. destruct (is_empty j) eqn:Em.
      * apply is_empty_iff in Em. destruct (V Em) as [D|D]; [discriminate D|subst j; destruct Em as [D|D]; discriminate D].
      * cbn [datatype_field fd_conv]. rewrite T. reflexivity.
Qed.

Lemma description_fields_ok sub : sub_datatype sub -> Forall (field_ok sub) (description_fields env).
Proof.
  intros Sd. unfold description_fields. repeat (apply Forall_cons; [|]); try apply Forall_nil.
  - apply uri_field_ok.
  - apply datatype_field_ok, Sd.
  - apply plain_ok.
    + intros j. destruct j; reflexivity.
    + intros j H. right. apply py_eq_str, H.
    + reflexivity.
  - apply lang_ok.
  - apply plain_ok.
    + apply conv_null_idem.
    + intros j H. right. apply (py_eq_strs _ [[]]), H.
    + reflexivity.
  - apply plain_ok.
    + intros j. apply converter_idem; try discriminate; reflexivity.
    + intros j H. right. apply py_eq_null, H.
    + reflexivity.
  - apply uri_field_ok.
  - apply plain_ok.
    + reflexivity.
    + intros j H. right. apply py_eq_null, H.
    + reflexivity.
  - apply plain_ok.
    + intros j. apply converter_null_idem. discriminate.
    + intros j H. right. apply py_eq_null, H.
    + reflexivity.
  - apply plain_ok.
    + intros j. apply converter_null_idem. discriminate.
    + intros j H. right. apply py_eq_null, H.
    + reflexivity.
  - apply uri_field_ok.
Qed.

(** ** Column *)
Lemma wf_distinct j : wf_json j -> distinct_keys j.
Proof. destruct j as [| | | | | |kvs]; try exact (fun _ => I). intros W. apply wf_obj in W. apply W. Qed.
Lemma dset_all_ne : forall (l1 l2 : list (pystr * json)), l2 <> [] -> dset_all str_eqb l2 l1 <> [].
Proof.
  induction l1 as [|[k v] l1 IH]; intros l2 H; [exact H|]. change (dset_all str_eqb l2 ((k, v) :: l1)) with (dset_all str_eqb (dset str_eqb l2 k v) l1).
  apply IH. destruct l2 as [|[k' v'] l2]; cbn [dset]; [discriminate|]. destruct (str_eqb _ _); discriminate.
Qed.
Lemma titles_field_ok sub : field_ok sub (titles_field env).
Proof.
  intros omit v (j & Wj & Hc) V O.
  assert (X : v = MJ JNull \/ exists nl, v = MTitles nl /\ nl_init tag_ok j = Ok nl).
  { cbn [titles_field fd_conv] in Hc. destruct j; try (left; congruence);
    (destruct (nl_init tag_ok _) as [nl|[]] in *; try discriminate Hc; injection Hc as <-; eauto). }
  clear Hc. destruct X as [->|(nl & -> & Hn)].
  - unfold rebuilt. destruct (omitted _ _ _); [reflexivity|]. exists JNull. split; reflexivity.
  - cbn [value_survives] in V. destruct V as [V1 V2]. unfold rebuilt, omitted. cbn [equals_default]. rewrite andb_false_r.
    exists (nl_asdict nl). split; [reflexivity|].
    pose proof (nl_init_roundtrip tag_ok j nl (wf_distinct _ Wj) Hn) as R.
    assert (Em : is_empty (nl_asdict nl) = false /\ nl_asdict nl <> JNull).
    { destruct nl as [|[[k|] l] nl]; [congruence| |].
      - split; [|discriminate]. cbn [nl_asdict map fst snd].
        match goal with |- context [dset_all str_eqb [] (?a :: ?r)] => pose proof (dset_all_ne r (dset str_eqb [] (fst a) (snd a))) as G;
          change (dset_all str_eqb [] (a :: r)) with (dset_all str_eqb (dset str_eqb [] (fst a) (snd a)) r) end.
        destruct (dset_all str_eqb _ _) as [|x l']; [|reflexivity]. elim G; [discriminate|reflexivity].
      - destruct nl as [|x nl].
        + cbn. destruct l as [|t [|t' l]]; [congruence| |]; split; try reflexivity; discriminate.
        + split; [|discriminate]. cbn [nl_asdict map fst snd].
          match goal with |- context [dset_all str_eqb [] (?a :: ?r)] => pose proof (dset_all_ne r (dset str_eqb [] (fst a) (snd a))) as G;
            change (dset_all str_eqb [] (a :: r)) with (dset_all str_eqb (dset str_eqb [] (fst a) (snd a)) r) end.
          destruct (dset_all str_eqb _ _) as [|y l']; [|reflexivity]. elim G; [discriminate|reflexivity]. }
    destruct Em as [Em Nn]. rewrite Em. cbn [titles_field fd_conv]. destruct (nl_asdict nl); try congruence; rewrite R; reflexivity.
Qed.

Lemma bool_conv_ok sub n : field_ok sub (plain n (JBool false) (converter TBool (JBool false) false no_cond)).
Proof.
  apply plain_ok.
  - intros j. apply converter_idem; try discriminate; reflexivity.
  - auto.
  - reflexivity.
Qed.
Lemma column_fields_ok sub : sub_datatype sub -> Forall (field_ok sub) (column_fields env).
Proof.
  intros Sd. unfold column_fields. apply Forall_app. split; [apply description_fields_ok, Sd|].
  repeat (apply Forall_cons; [|]); try apply Forall_nil.
  - apply plain_ok.
    + intros j. apply converter_null_idem. discriminate.
    + intros j H. right. apply py_eq_null, H.
    + reflexivity.
  - apply bool_conv_ok.
  - apply titles_field_ok.
  - apply bool_conv_ok.
Qed.

Lemma wf_defaults_app (fs gs : list field) : Forall (fun f => wf_json (fd_default f)) fs -> Forall (fun f => wf_json (fd_default f)) gs ->
  forall f, In f (fs ++ gs) -> wf_json (fd_default f).
Proof. intros H1 H2. apply Forall_forall, Forall_app. auto. Qed.
Lemma description_wf : Forall (fun f => wf_json (fd_default f)) (description_fields env).
Proof. unfold description_fields. repeat (apply Forall_cons; [cbn; tauto|]); apply Forall_nil. Qed.
Lemma column_wf f : In f (cl_fields (Column_class env)) -> wf_json (fd_default f).
Proof. apply wf_defaults_app; [apply description_wf|]. repeat (apply Forall_cons; [cbn; tauto|]); apply Forall_nil. Qed.
Lemma column_names : names_ok (Column_class env).
Proof. split; vm_compute; reflexivity. Qed.

Theorem column_rt omit d o d' : wf_json d -> fromvalue env (Column_class env) d = Ok o -> column_survives env o ->
  asdict (Column_class env) omit o = Ok d' -> fromvalue env (Column_class env) (JObj d') = Ok o.
Proof.
  intros W H V E. destruct (fromvalue_inv env _ _ _ W column_wf H) as (common & at_ & vals & St & F & P).
  cbn [Column_class cl_post] in P. injection P as <-.
  rewrite (rebuild' env _ (Column_class env) omit (MO None common at_ vals) d' vals column_names St V E); [reflexivity|].
  intros S. eapply fields_rebuilt; [|exact F|apply (sv_values _ _ _ _ V)|exact S].
  apply column_fields_ok. intros x Hx. exact Hx.
Qed.
Lemma column_num d o : fromvalue env (Column_class env) d = Ok o -> o_num o = None.
Proof.
  unfold fromvalue. destruct (partition_properties _ _ _ _ _) as [[[p|] ?]|]; try discriminate. cbn [bind fst]. intros H.
  apply new_object_inv in H. destruct H as (vals & _ & _ & P). cbn in P. injection P as <-. reflexivity.
Qed.

(** ** Schema *)
Lemma asdict_num (C : class) omit n m c a v : asdict C omit (MO n c a v) = asdict C omit (MO m c a v).
Proof. reflexivity. Qed.
Definition denum (o : mobj) : mobj := MO None (o_common o) (o_at o) (o_vals o).
Lemma number_from_denum cols : Forall (fun o => o_num o = None) cols -> forall i, map denum (number_from i cols) = cols.
Proof.
  induction cols as [|[n c a v] cols IH]; intros H i; [reflexivity|]. apply Forall_cons_iff in H. destruct H as [H1 H2]. cbn in H1. subst n.
  cbn [number_from map]. rewrite IH by exact H2. reflexivity.
Qed.
Lemma dict_items_objs (ds : list (list (pystr * json))) : dict_items (map JObj ds) = map JObj ds.
Proof. unfold dict_items. induction ds as [|d ds IH]; [reflexivity|]. cbn [map flat_map conv_dict app]. f_equal. exact IH. Qed.
Lemma conv_dict_wf x y : wf_json x -> conv_dict x = Some y -> wf_json y.
Proof.
  revert y. induction x as [| | | | |l Hl|kvs Hk] using json_ind'; intros y W H; try discriminate H; cbn [conv_dict] in H; injection H as <-.
  - pose proof (proj1 (wf_list l) W) as W'. clear W. rename W' into W. apply (proj2 (wf_list _)). intros z Hz.
    induction Hl as [|x l Hx Hl IH]; [destruct Hz|]. destruct (conv_dict x) as [y|] eqn:E.
    + destruct Hz as [<-|Hz]; [eapply Hx; [apply W; left; reflexivity|reflexivity]|]. apply IH; [intros u Hu; apply W; right; exact Hu|exact Hz].
    + apply IH; [intros u Hu; apply W; right; exact Hu|exact Hz].
  - exact W.
Qed.

Definition columns_sub (sub : pystr -> mobj -> Prop) : Prop := forall x, sub (lit "columns") x -> column_survives env x.
Lemma survives_num sub (C : class) n c a v : obj_survives env sub C (MO n c a v) -> obj_survives env sub C (MO None c a v).
Proof. intros [H1 H2 H3 H4]. constructor; assumption. Qed.

Lemma mapM_asdict_rt (C : class) omit (fv : json -> res mobj) (P : mobj -> Prop) :
  (forall o d', P o -> asdict C omit o = Ok d' -> fv (JObj d') = Ok (denum o)) ->
  forall l js, Forall P l -> mapM (fun o => d <- asdict C omit o ;; Ok (JObj d)) l = Ok js ->
  (exists ds, js = map JObj ds) /\ mapM fv js = Ok (map denum l).
Proof.
  intros R. induction l as [|o l IH]; intros js F E.
  - injection E as <-. split; [exists []; reflexivity|reflexivity].
  - apply Forall_cons_iff in F. destruct F as [F1 F2]. cbn [mapM] in E. destruct (asdict C omit o) as [d|] eqn:Ed; [|discriminate E].
    cbn [bind] in E. destruct (mapM _ l) as [js'|] eqn:El; [|discriminate E]. cbn [bind] in E. injection E as <-.
    destruct (IH js' F2 eq_refl) as [(ds & ->) E2]. split; [exists (d :: ds); reflexivity|].
    cbn [mapM map]. rewrite (R _ _ F1 Ed). cbn [bind]. rewrite E2. reflexivity.
Qed.

Lemma columns_rebuilt sub omit cols : columns_sub sub -> converted (columns_field env) (MObjs cols) ->
  value_survives env sub (columns_field env) (MObjs (number_from 0 cols)) -> ser_ok omit (columns_field env) (MObjs (number_from 0 cols)) ->
  rebuilt omit (columns_field env) (MObjs (number_from 0 cols)) (MObjs cols).
Proof.
  intros Sc (j & Wj & Hc) V O. cbn [columns_field fd_conv] in Hc.
  destruct (mapM _ (dict_items _)) as [cols'|] eqn:M; [|discriminate Hc]. cbn [bind] in Hc. injection Hc as ->.
  assert (N : Forall (fun o => o_num o = None) cols).
  { apply mapM_Ok_inv in M. clear - M. induction M as [|x o xs os H M IH]; constructor; [eapply column_num, H|exact IH]. }
  destruct cols as [|c0 cols0].
  { unfold rebuilt, omitted. destruct omit; cbn; [reflexivity|]. exists (JList []). split; reflexivity. }
  set (cols := c0 :: cols0) in *.
  assert (Nn : equals_default (JList []) (MObjs (number_from 0 cols)) = false) by (subst cols; destruct c0; reflexivity).
  unfold rebuilt, omitted. cbn [columns_field fd_default]. unfold ser_ok, omitted in O. cbn [columns_field fd_default] in O.
  rewrite Nn, andb_false_r in *. destruct (O eq_refl) as [js Hjs]. exists js. split; [exact Hjs|]. cbn [columns_field fd_ser] in Hjs.
  destruct (mapM _ (number_from 0 cols)) as [jl|] eqn:Mj; [|discriminate Hjs]. cbn [bind] in Hjs. injection Hjs as <-.
  (* every column survives *)
  assert (PP : Forall (fun o => (exists d, wf_json d /\ fromvalue env (Column_class env) d = Ok (denum o)) /\ column_survives env (denum o)) (number_from 0 cols)).
  { apply Forall_forall. intros x Hx. split.
    - assert (Hd : In (denum x) cols) by (rewrite <- (number_from_denum cols N 0); apply in_map, Hx).
      apply mapM_Ok_inv in M. assert (Wi : Forall wf_json (dict_items (match j with JList l => l | _ => [] end))).
      { apply Forall_forall. intros u Hu. unfold dict_items in Hu. apply in_flat_map in Hu. destruct Hu as (w & Hw & Hu).
        destruct (conv_dict w) as [y|] eqn:Ey; [|destruct Hu]. destruct Hu as [<-|[]]. eapply conv_dict_wf; [|exact Ey].
        destruct j as [| | | | |l|]; try destruct Hw. exact (proj1 (wf_list l) Wj w Hw). }
      clear - M Hd Wi. induction M as [|u o us os H M IH]; [destruct Hd|]. apply Forall_cons_iff in Wi. destruct Wi as [W1 W2].
      destruct Hd as [<-|Hd]; [eauto|]. apply IH; assumption.
    - cbn [value_survives] in V. rewrite Forall_forall in V. apply V in Hx. apply Sc in Hx. destruct x as [n c a v]. eapply survives_num, Hx. }
  destruct (mapM_asdict_rt (Column_class env) omit (fromvalue env (Column_class env)) _
    (fun o d' (Ho : (exists d, wf_json d /\ fromvalue env (Column_class env) d = Ok (denum o)) /\ column_survives env (denum o)) Ed =>
       match Ho with conj (ex_intro _ d (conj Wd Hd)) Sv => column_rt omit d (denum o) d' Wd Hd Sv Ed end) _ _ PP Mj) as [(ds & ->) R].
  destruct ds as [|d ds]; [cbn [mapM map] in R; rewrite (number_from_denum cols N 0) in R; discriminate R|].
  cbn [is_empty]. cbn [columns_field fd_conv]. rewrite dict_items_objs, R, (number_from_denum cols N 0). reflexivity.
Qed.

Definition colref_ok (j : json) : Prop := j = JNull \/ exists l, j = JList l.
Lemma conv_colref_ok j : colref_ok (conv_colref j).
Proof. unfold colref_ok. destruct j; cbn; eauto. Qed.
Lemma conv_colref_id j : colref_ok j -> conv_colref j = j.
Proof. intros [->|[l ->]]; reflexivity. Qed.
Definition fk_ok (f : fkobj) : Prop := colref_ok (k_cols f) /\ colref_ok (k_refcols f) /\ (k_resource f = None \/ k_schemaReference f = None).
Lemma fkey_of_ok d f : fkey_of d = Ok f -> fk_ok f.
Proof.
  unfold fkey_of. destruct (dget str_eqb d _) as [r|]; [|discriminate]. destruct (reference_of r) as [[[a b] c]|] eqn:E; [|discriminate].
  cbn [bind]. destruct (negb _); [discriminate|]. intros H. injection H as <-. unfold fk_ok. cbn [k_cols k_refcols k_resource k_schemaReference fst snd].
  split; [apply conv_colref_ok|]. unfold reference_of in E. destruct r as [| | | | | |r]; try discriminate E. destruct (negb _) in E; [discriminate E|].
  destruct (link_of _) as [x|] in E; [|discriminate E]. cbn [bind] in E. destruct (link_of _) as [y|] in E; [|discriminate E]. cbn [bind] in E.
  destruct x, y; try discriminate E; injection E as <- <- <-; (split; [apply conv_colref_ok|]); auto.
Qed.
Lemma fkey_rt omit f : fk_ok f -> exists d, fkey_asdict omit f = JObj d /\ fkey_of d = Ok f.
Proof.
  destruct f as [c r s rc]. unfold fk_ok. cbn [k_cols k_refcols k_resource k_schemaReference]. intros (H1 & H2 & H3).
  eexists. split; [reflexivity|]. cbn [k_cols k_refcols k_resource k_schemaReference].
  destruct H1 as [->|[l1 ->]], H2 as [->|[l2 ->]], r as [r|], s as [s|], omit; try (destruct H3; discriminate); reflexivity.
Qed.
Lemma fkeys_field_ok sub : field_ok sub (fkeys_field).
Proof.
  intros omit v (j & _ & Hc) V O. cbn [fkeys_field fd_conv] in Hc. destruct (conv_fkeys j) as [l|] eqn:E; [|discriminate Hc].
  cbn [bind] in Hc. injection Hc as <-.
  assert (Fk : Forall fk_ok l).
  { destruct j as [| | | | |js|]; try discriminate E; try (injection E as <-; constructor). cbn [conv_fkeys] in E.
    apply mapM_Ok_inv in E. clear - E. induction E as [|x f xs fs H E IH]; constructor; [eapply fkey_of_ok, H|exact IH]. }
  unfold rebuilt. destruct l as [|f0 l0].
  { destruct omit; cbn; [reflexivity|]. exists (JList []). split; reflexivity. }
  unfold omitted. cbn [equals_default]. rewrite andb_false_r.
  exists (JList (map (fkey_asdict omit) (f0 :: l0))). split; [reflexivity|]. cbn [map is_empty]. cbn [fkeys_field fd_conv conv_fkeys].
  change (fkey_asdict omit f0 :: map (fkey_asdict omit) l0) with (map (fkey_asdict omit) (f0 :: l0)).
  assert (D : exists ds, map (fkey_asdict omit) (f0 :: l0) = map JObj ds /\ mapM fkey_of ds = Ok (f0 :: l0)).
  { revert Fk. generalize (f0 :: l0). clear. intros l Fk. induction Fk as [|f l H Fk (ds & E1 & E2)]; [exists []; split; reflexivity|].
    destruct (fkey_rt omit f H) as (d & E3 & E4). exists (d :: ds). cbn [map mapM]. rewrite E3, E1, E4. cbn [bind]. rewrite E2. split; reflexivity. }
  destruct D as (ds & -> & D). rewrite dict_items_objs.
  assert (X : flat_map (fun x => match x with JObj d => [d] | _ => [] end) (map JObj ds) = ds).
  { clear. induction ds as [|d ds IH]; [reflexivity|]. cbn [map flat_map app]. rewrite IH. reflexivity. }
  rewrite X, D. reflexivity.
Qed.

Lemma schema_wf f : In f (cl_fields (Schema_class env)) -> wf_json (fd_default f).
Proof. apply wf_defaults_app; [apply description_wf|]. repeat (apply Forall_cons; [cbn; tauto|]); apply Forall_nil. Qed.
Lemma schema_names : names_ok (Schema_class env).
Proof. split; vm_compute; reflexivity. Qed.

Lemma pk_ok_result (cols : list mobj) : forall refs acc pk, pk_ok cols refs acc = Ok pk -> pk = acc \/ pk = JNull.
Proof.
  induction refs as [|r refs IH]; intros acc pk H; cbn [pk_ok] in H; [injection H as <-; auto|].
  destruct (mapM _ cols) as [hs|]; [|discriminate H]. cbn [bind] in H. destruct r; try discriminate H; try (apply IH; exact H).
  destruct (dget str_eqb _ s) as [c|]; [|apply IH; exact H].
  destruct (col_name c) as [| | | |[|]| |]; try (apply IH in H; destruct H; auto; fail); apply IH; exact H.
Qed.

Lemma app_len_inv {A} (a b c d : list A) : length a = length c -> a ++ b = c ++ d -> a = c /\ b = d.
Proof.
  revert c. induction a as [|x a IH]; intros [|y c] L E; try discriminate L; [auto|]. injection L as L. injection E as -> E.
  destruct (IH c L E) as [-> ->]. auto.
Qed.
Lemma F2_app_inv {X Y} (R : X -> Y -> Prop) a b ys : Forall2 R (a ++ b) ys -> exists y1 y2, ys = y1 ++ y2 /\ Forall2 R a y1 /\ Forall2 R b y2.
Proof. intros H. apply Forall2_app_inv_l in H. destruct H as (l1 & l2 & H1 & H2 & E). eauto. Qed.
Lemma F2_split {X Y} (R : X -> Y -> Prop) a b y1 y2 : length a = length y1 -> Forall2 R (a ++ b) (y1 ++ y2) -> Forall2 R a y1 /\ Forall2 R b y2.
Proof.
  intros L H. apply F2_app_inv in H. destruct H as (z1 & z2 & E & H1 & H2).
  apply app_len_inv in E; [destruct E as [-> ->]; auto|]. rewrite <- L. symmetry. rewrite (Forall2_length _ _ _ H1). reflexivity.
Qed.
Lemma combine_app {X Y} (a b : list X) (c d : list Y) : length a = length c -> combine (a ++ b) (c ++ d) = combine a c ++ combine b d.
Proof. revert c. induction a as [|x a IH]; intros [|y c] L; try discriminate L; [reflexivity|]. injection L as L. cbn. rewrite IH by exact L. reflexivity. Qed.

Theorem schema_rt omit d o d' : wf_json d -> fromvalue env (Schema_class env) d = Ok o -> schema_survives env o ->
  asdict (Schema_class env) omit o = Ok d' -> fromvalue env (Schema_class env) (JObj d') = Ok o.
Proof.
  intros W H V E. destruct (fromvalue_inv env _ _ _ W schema_wf H) as (common & at_ & vals & St & F & P).
  cbn [Schema_class cl_fields schema_fields] in F. apply F2_app_inv in F. destruct F as (dv & cv & -> & F1 & F2).
  assert (Ld : length dv = 11%nat) by (symmetry; exact (Forall2_length _ _ _ F1)).
  apply F2_cons in F2. destruct F2 as (v1 & t & -> & C1 & F2). apply F2_cons in F2. destruct F2 as (v2 & t2 & -> & C2 & F2).
  apply F2_cons in F2. destruct F2 as (v3 & t3 & -> & C3 & F2). apply F2_cons in F2. destruct F2 as (v4 & t4 & -> & C4 & F2).
  apply F2_nil in F2. subst t4.
  cbn [Schema_class cl_post schema_post o_vals] in P. unfold schema_post in P. cbn [o_vals o_num o_common o_at] in P.
  assert (Sk : forall x y z w : mval, skipn 11 (dv ++ [x; y; z; w]) = [x; y; z; w]) by (intros; rewrite <- Ld, skipn_app, skipn_all, Nat.sub_diag; reflexivity).
  assert (Fn : forall r : list mval, firstn 11 (dv ++ r) = dv) by (intros; rewrite <- Ld, firstn_app, firstn_all, Nat.sub_diag; cbn; apply app_nil_r).
  rewrite Sk, Fn in P. destruct v1 as [| | | | | | | | |cols]; try discriminate P. destruct v3 as [pk| | | | | | | | |]; try discriminate P.
  destruct (cols_ok false [] cols) as [[]|] eqn:Ck; [|discriminate P]. cbn [bind] in P.
  destruct (pk_ok (number_from 0 cols) _ pk) as [pk'|] eqn:Pk; [|discriminate P]. cbn [bind] in P. injection P as <-.
  rewrite (rebuild' env _ (Schema_class env) omit (MO None common at_ (dv ++ [MObjs (number_from 0 cols); v2; MJ pk'; v4])) d' (dv ++ [MObjs cols; v2; MJ pk'; v4])
    schema_names St V E).
  - cbn [Schema_class cl_post]. unfold schema_post. cbn [o_vals o_num o_common o_at]. rewrite Sk, Fn, Ck. cbn [bind].
    assert (Pk' : pk_ok (number_from 0 cols) (match pk' with JList l => l | _ => [] end) pk' = Ok pk').
    { destruct (pk_ok_result _ _ _ _ Pk) as [->| ->]; [exact Pk|reflexivity]. }
    rewrite Pk'. reflexivity.
  - intros S. pose proof (sv_values _ _ _ _ V) as SV. cbn [Schema_class cl_fields schema_fields o_vals] in *.
    apply F2_split in SV; [|symmetry; exact Ld]. destruct SV as [SV1 SV2]. apply F2_split in S; [|symmetry; exact Ld]. destruct S as [S1 S2].
    unfold schema_fields. rewrite combine_app by (symmetry; exact Ld). apply Forall2_app.
    + eapply fields_rebuilt; [|exact F1|exact SV1|exact S1]. apply description_fields_ok.
      intros x [[D _]|[_ Hx]]; [discriminate D|exact Hx].
    + apply F2_cc in SV2. destruct SV2 as [V1 SV2]. apply F2_cc in SV2. destruct SV2 as [V2 SV2].
      apply F2_cc in SV2. destruct SV2 as [V3 SV2]. apply F2_cc in SV2. destruct SV2 as [V4 _].
      apply F2_cc in S2. destruct S2 as [T1 S2]. apply F2_cc in S2. destruct S2 as [T2 S2].
      apply F2_cc in S2. destruct S2 as [T3 S2]. apply F2_cc in S2. destruct S2 as [T4 _].
      cbn [combine]. repeat (apply Forall2_cons; [cbn [fst snd]|]); try apply Forall2_nil.
      * eapply columns_rebuilt; [|exact C1|exact V1|exact T1]. intros x [[_ Hx]|[D _]]; [exact Hx|discriminate D].
      * eapply fkeys_field_ok; eassumption.
      * eapply plain_ok; [| | | |exact V3|exact T3].
        -- intros j. apply conv_colref_id, conv_colref_ok.
        -- intros j Hj. right. apply py_eq_null, Hj.
        -- reflexivity.
        -- destruct (pk_ok_result _ _ _ _ Pk) as [->| ->]; [exact C3|]. exists JNull. split; [exact I|reflexivity].
      * eapply plain_ok; [| | |exact C4|exact V4|exact T4].
        -- intros j. destruct j; reflexivity.
        -- intros j Hj. right. apply py_eq_nil, Hj.
        -- reflexivity.
Qed.
End Fields.
