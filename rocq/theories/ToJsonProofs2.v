(** C69: what the objects of the metadata say about what is converted. *)
From Coq Require Import Permutation.
From Verif Require Import PyStr Dsv Json Dec Dialects NatLang Datatype Meta MetaSpec MetaProofs MetaProofs2 MetaProofs3 DsvProofs4 Zip Locate LocateSpec
  Column ColumnSpec ColumnProofs Schema Table TableSpec Files Jsonld Csv2json Csv2jsonSpec Descr DescrSpec DescrProofs DescrProofs3 DescrProofs4 DescrProofs5 Load LoadSpec LoadProofs LoadProofs2 LoadProofs3 LoadProofs4 FrictionlessProofs2 ToJson ToJsonSpec.
From Verif Require JsonTextProofs JsonldProofs.
Local Open Scope nat_scope.
Section Says.
Context {B V : Type} (W : world B) (dtype_of : mobj B -> dtype V).
Lemma level_ok d n c a dv rest de : Forall2 (attr_from d) (description_fields W) dv -> load_desc dtype_of (MO n c a (dv ++ rest)) = Ok de -> level_says W dtype_of d de.
Proof.
  intros F H. pose proof (load_desc_from W dtype_of d n c a dv rest de F H) as Df.
  assert (Ab : template_says d (lit "aboutUrl") (de_aboutUrl de)).
  { clear Df. unfold description_fields in F.
    repeat match goal with H : Forall2 _ (_ :: _) _ |- _ => inversion H; clear H; subst | H : Forall2 _ [] _ |- _ => inversion H; clear H; subst end.
    unfold attr_from in *. cbn [fd_conv fd_name fd_default Descr.plain uri_field datatype_field lang_field] in *.
    unfold load_desc in H. cbn [o_vals app] in H. apply bind_inv in H as (about & E1 & H). apply bind_inv in H as (? & _ & H). apply bind_inv in H as (? & _ & H). apply bind_inv in H as (? & _ & H).
    apply Ok_inj in H. subst de. cbn [de_aboutUrl].
    assert (X : Ok match getdef (member d (lit "aboutUrl")) JNull with JNull => MJ JNull | JStr s => MUri s | _ => MInvalid end = Ok y) by assumption. apply Ok_inj in X. subst y.
    unfold template_says. destruct (member d (lit "aboutUrl")) as [[]|]; cbn in E1; (apply Ok_inj in E1; symmetry; exact E1) || discriminate E1. }
  destruct Df as [_ Sp Dt Nu _ _ Va Pr]. split; [exact Ab|exact Pr|exact Va| | |].
  - destruct (de_separator de) as [s|]; cbn [from_member] in Sp.
    + destruct Sp as (j & -> & _ & ->). reflexivity.
    + destruct (member d (lit "separator")) as [[]|]; try reflexivity. elim (Sp _ eq_refl). eexists; reflexivity.
  - unfold own_nulls in Nu. assert (X : de_null de = [[]] \/ de_null de <> [[]]) by (destruct (list_eq_dec str_eq_dec (de_null de) [[]]); auto). destruct X as [E|Ne].
    + right. split; [exact E|]. rewrite E in Nu. cbn [from_member] in Nu. intros j ss M R. destruct (list_eq_dec str_eq_dec ss [[]]) as [e|ne]; [exact e|]. elim (Nu j M). exists ss. auto.
    + left. assert (Q : match de_null de with [[]] => None | n => Some n end = Some (de_null de)) by (destruct (de_null de) as [|[|] [|]]; try reflexivity; contradiction Ne; reflexivity).
      rewrite Q in Nu. cbn [from_member] in Nu. destruct Nu as (j & M & _ & R). eauto.
  - destruct (de_datatype de) as [[t|]|]; cbn [from_member] in Dt.
    + destruct Dt as (j & M & _ & o & D & ->). eauto.
    + destruct Dt as (j & M & Nn & T). eauto.
    + destruct (member d (lit "datatype")) as [j|]; [|left; reflexivity]. right. f_equal. destruct j; try reflexivity; elim (Dt _ eq_refl); unfold not_null; discriminate.
Qed.

(** ** The parts of an object *)
Lemma fromvalue_parts (C : class B) d o : wf_json (JObj d) -> names_ok C -> fromvalue W C (JObj d) = Ok o ->
  exists vals, Forall2 (attr_from d) (cl_fields C) vals /\
    cl_post C (MO None (sort_items (expected_common (w_tag_ok W) (all_names C) true d)) (sort_items (expected_at (all_names C) true d)) vals) = Ok o.
Proof.
  intros Wf [Nm _] H. unfold fromvalue in H.
  destruct (partition_properties (w_tag_ok W) (all_names C) (cl_name C) true (JObj d)) as [[po ws]|] eqn:P; [|discriminate H].
  cbn [bind fst] in H. destruct po as [p|]; [|discriminate H].
  destruct (partition_sound (w_tag_ok W) (all_names C) (cl_name C) true d (Some p) ws Wf P) as (A & E & _).
  injection E as ->. apply new_object_inv in H. destruct H as (vals & _ & F & Post). exists vals. split; [|exact Post].
  cbn [p_attrs] in F. assert (G : forall f, In f (cl_fields C) -> dget str_eqb (expected_attrs (all_names C) true d) (fd_name f) = member d (fd_name f)).
  { intros f Hf. unfold expected_attrs, with_fate, member. rewrite (dget_filter (fun k => if fate_eq_dec (fate_of (all_names C) true k) FAttr then true else false)); [reflexivity|].
    assert (Pl : plain_name (fd_name f)). { apply plain_nameb_ok. apply (proj1 (forallb_forall _ _) Nm). apply in_map. exact Hf. }
    rewrite (fate_field C); [destruct (fate_eq_dec FAttr FAttr); congruence| |exact Pl].
    unfold all_names, field_names. right. right. apply in_or_app. right. apply in_map. exact Hf. }
  clear -F G. revert F G. generalize (cl_fields C). intros fs F. induction F as [|f v fs vs E F IH]; intros G; constructor.
  - unfold attr_from. rewrite <- G by (left; reflexivity). exact E.
  - apply IH. intros f' Hf. apply G. right; exact Hf.
Qed.
Lemma common_ok F d : NoDup (map fst d) -> common_says W d (sort_items (expected_common (w_tag_ok W) F true d)).
Proof.
  intros Nd. split.
  - eapply Permutation_NoDup; [apply Permutation_map, Permutation_sym, sort_items_perm|]. unfold expected_common, with_fate. rewrite map_map. cbn [fst]. apply NoDup_filter_fst. exact Nd.
  - intros k v. assert (E : In (k, v) (sort_items (expected_common (w_tag_ok W) F true d)) <-> In (k, v) (expected_common (w_tag_ok W) F true d)).
    { split; apply Permutation_in; [|apply Permutation_sym]; apply sort_items_perm. }
    rewrite E. unfold expected_common. rewrite in_map_iff. clear E.
    assert (Q : forall k v0, In (k, v0) (with_fate F true FCommon d) <-> common_property d k v0).
    { intros k' v0. rewrite with_fate_In, fate_common_iff. unfold common_property, member. rewrite <- (JsonTextProofs.dget_In_unique d k' v0 Nd), char_mem_In.
      assert (S : startswith (lit "@") k' = false <-> forall s, k' <> lit "@" ++ s).
      { split.
        - intros S s ->. assert (T : startswith (lit "@") (lit "@" ++ s) = true) by (apply startswith_iff; eauto). congruence.
        - intros S. destruct (startswith (lit "@") k') eqn:X; [|reflexivity]. apply startswith_iff in X. destruct X as [s X]. elim (S s X). }
      rewrite S. tauto. }
    split.
    + intros ([k0 v0] & E & I). apply Q in I. cbn [fst snd] in E. injection E as <- <-. eauto.
    + intros (v0 & P & ->). exists (k, v0). split; [reflexivity|]. apply Q. exact P.
Qed.
Lemma at_id F d : NoDup (map fst d) -> dget str_eqb (sort_items (expected_at F true d)) (lit "id") = option_map (fun v => match v with JStr s => JStr s | _ => JNull end) (member d (lit "@id")).
Proof.
  intros Nd. pose proof (at_from_expected F d Nd) as [Na _]. destruct (member d (lit "@id")) as [v|] eqn:M; cbn [option_map].
  - apply (JsonTextProofs.dget_In_unique _ _ _ Na). eapply Permutation_in; [apply Permutation_sym, sort_items_perm|]. unfold expected_at. apply in_map_iff. exists (lit "@id", v). split.
    + cbn [fst snd]. destruct (str_eq_dec (lit "@id") (lit "@id")) as [_|n]; [reflexivity|contradiction n; reflexivity].
    + apply with_fate_In. split; [apply dget_Some_In; exact M|]. apply fate_at_iff. exists (lit "id"). reflexivity.
  - destruct (dget str_eqb _ (lit "id")) as [v|] eqn:E; [|reflexivity]. apply dget_Some_In in E. apply (Permutation_in _ (sort_items_perm _)) in E. unfold expected_at in E. apply in_map_iff in E. destruct E as ([k0 v0] & Eq & I).
    apply with_fate_In in I. destruct I as [I Fk]. apply fate_at_iff in Fk. destruct Fk as [k' ->]. pose proof (f_equal fst Eq) as E1. cbn [fst] in E1. change (tl (lit "@" ++ k')) with k' in E1. subst k'.
    apply (in_map fst) in I. cbn [fst] in I. elim (dget_None_In _ _ M). exact I.
Qed.
Lemma at_post_id at_ at2 : at_post W at_ = Ok at2 ->
  (dget str_eqb at_ (lit "id") = None -> dget str_eqb at2 (lit "id") = None) /\ forall s, dget str_eqb at_ (lit "id") = Some (JStr s) -> dget str_eqb at2 (lit "id") = Some (JStr s).
Proof.
  unfold at_post, dget_at. intros H. apply bind_inv in H. destruct H as (at1 & E1 & H).
  assert (A2 : dget str_eqb at2 (lit "id") = dget str_eqb at1 (lit "id")).
  { destruct (dget str_eqb at1 (lit "context")) as [[| | | | |l|]|]; try (apply Ok_inj in H; subst at2; reflexivity).
    apply bind_inv in H. destruct H as (l' & _ & H). apply Ok_inj in H. subst at2. rewrite (dget_dset str_eqb str_eqb_eq). destruct (str_eqb_spec (lit "id") (lit "context")); [discriminate|reflexivity]. }
  rewrite A2. split; [intros E|intros s E]; rewrite E in E1; apply Ok_inj in E1; subst at1; exact E.
Qed.

(** ** Columns, schemas *)
Lemma col_ok d o n c : wf_json (JObj d) -> fromvalue W (Column_class W) (JObj d) = Ok o -> load_column dtype_of true (MO n (o_common o) (o_at o) (o_vals o)) = Ok c ->
  level_says W dtype_of d (c_desc c) /\ exists j, nth 12 (o_vals o) (MJ JNull) = MJ j /\ ((forall l, member d (lit "suppressOutput") <> Some (JList l)) -> truthy j = true <-> member d (lit "suppressOutput") = Some (JBool true)).
Proof.
  intros Wf H L. destruct (fromvalue_members W _ d o Wf (column_names W) H) as (common & at_ & vals & Fv & E & _).
  cbn [cl_post Column_class] in E. apply Ok_inj in E. subst o. cbn [o_common o_at o_vals] in *.
  cbn [cl_fields Column_class] in Fv. unfold column_fields in Fv. apply F2_app_inv in Fv. destruct Fv as (dv & cv & -> & Fd & Fc).
  assert (Ld : length dv = 11) by (symmetry; exact (eq_trans eq_refl (Forall2_length _ _ _ Fd))).
  inversion Fc as [|? mname ? ? Hname Fc1]; subst. inversion Fc1 as [|? msupp ? ? Hsupp Fc2]; subst. clear Fc Fc1 Fc2.
  assert (Hs : Ok (MJ (converter TBool (JBool false) false no_cond (getdef (member d (lit "suppressOutput")) (JBool false)))) = Ok msupp) by exact Hsupp.
  unfold load_column in L. destruct (load_desc dtype_of _) as [de|] eqn:Ed; [|discriminate L]. cbn [bind] in L. apply Ok_inj in L. subst c. cbn [c_desc].
  split; [exact (level_ok d _ _ _ dv _ de Fd Ed)|].
  apply Ok_inj in Hs. subst msupp. rewrite app_nth2, Ld by lia. cbn [nth Nat.sub]. eexists. split; [reflexivity|]. intros Nl.
  destruct (member d (lit "suppressOutput")) as [[|[]| | | |l|]|]; cbn; split; congruence.
Qed.
Lemma schema_parts s o sch : wf_json (JObj s) -> fromvalue W (Schema_class W) (JObj s) = Ok o -> load_schema dtype_of true o = Ok sch ->
  level_says W dtype_of s (s_desc sch) /\
  exists ds cols rt, columns_of s ds /\ nth 11 (o_vals o) (MJ JNull) = MObjs cols /\ nth 14 (o_vals o) (MJ JNull) = MJ rt /\
    (forall names, all_str rt = Ok names -> row_titles_say s names) /\
    length cols = length ds /\ length (s_columns sch) = length ds /\
    forall i d c oc, nth_error ds i = Some d -> nth_error (s_columns sch) i = Some c -> nth_error cols i = Some oc ->
      level_says W dtype_of d (c_desc c) /\ ((forall l, member d (lit "suppressOutput") <> Some (JList l)) -> a_true (nth 12 (o_vals oc) (MJ JNull)) = true <-> member d (lit "suppressOutput") = Some (JBool true)).
Proof.
  intros Wf H L.
  destruct (fromvalue_members W _ s o Wf (schema_names W) H) as (common & at_ & vals & Fv & E & _).
  cbn [cl_fields Schema_class] in Fv. unfold schema_fields in Fv. apply F2_app_inv in Fv. destruct Fv as (dv & cv & -> & Fd & Fc).
  assert (Ld : length dv = 11) by (symmetry; exact (Forall2_length _ _ _ Fd)).
  inversion Fc as [|? mcols ? ? Hcols Fc1]; subst. inversion Fc1 as [|? mfks ? ? Hfks Fc2]; subst. inversion Fc2 as [|? mpk ? ? Hpk Fc3]; subst.
  inversion Fc3 as [|? mrow ? ? Hrow Fc4]; subst. inversion Fc4; subst. clear Fc Fc1 Fc2 Fc3 Fc4.
  assert (Hc : (cols <- mapM (fromvalue W (Column_class W)) (dict_items (match getdef (member s (lit "columns")) (JList []) with JList l => l | _ => [] end)) ;; Ok (MObjs cols)) = Ok mcols) by exact Hcols.
  destruct (mapM _ _) as [cols|] eqn:Mc in Hc; [|discriminate Hc]. cbn [bind] in Hc. apply Ok_inj in Hc. subst mcols.
  cbn [cl_post Schema_class] in E. unfold schema_post in E. cbn [o_vals o_num o_common o_at] in E.
  assert (Sk : forall x, skipn 11 (dv ++ x) = x) by (intros x; rewrite <- Ld, skipn_app, skipn_all, Nat.sub_diag; reflexivity).
  assert (Fn : forall x, firstn 11 (dv ++ x) = dv) by (intros x; rewrite <- Ld, firstn_app, firstn_all, Nat.sub_diag; cbn; apply app_nil_r).
  rewrite Sk in E. destruct mpk as [pk| | | | | | | | |]; try discriminate E. destruct (cols_ok false [] cols) as [[]|] eqn:Ck; [|discriminate E]. cbn [bind] in E.
  destruct (pk_ok _ _ _) as [pk'|] eqn:P; [|discriminate E]. cbn [bind] in E. apply Ok_inj in E. subst o. rewrite Fn in *.
  unfold load_schema in L. cbn [o_vals] in L. rewrite Sk in L. destruct mfks as [| | | | | | |fks| |]; try discriminate L.
  destruct (load_desc dtype_of _) as [de|] eqn:Ed; [|discriminate L]. cbn [bind] in L.
  destruct (mapM (load_column dtype_of true) _) as [cs|] eqn:Cs; [|discriminate L]. cbn [bind] in L.
  destruct (load_pk pk') as [pk2|]; [|discriminate L]. cbn [bind] in L. destruct (mapM load_fkey fks) as [fks2|]; [|discriminate L]. cbn [bind] in L.
  apply Ok_inj in L. subst sch. cbn [s_desc s_columns] in *. split; [exact (level_ok s _ _ _ dv _ de Fd Ed)|].
  assert (Hr : Ok (MJ match getdef (member s (lit "rowTitles")) (JList []) with JList l => JList l | j => JList [j] end) = Ok mrow).
  { assert (Hr0 : Ok (MJ (match getdef (member s (lit "rowTitles")) (JList []) with JList _ => getdef (member s (lit "rowTitles")) (JList []) | _ => JList [getdef (member s (lit "rowTitles")) (JList [])] end)) = Ok mrow) by exact Hrow.
    rewrite <- Hr0. destruct (getdef (member s (lit "rowTitles")) (JList [])); reflexivity. }
  apply Ok_inj in Hr. assert (exists ds, columns_of s ds /\ Forall2 (fun d o => wf_json (JObj d) /\ fromvalue W (Column_class W) (JObj d) = Ok o) ds cols) as (ds & Co & Fo).
  { unfold columns_of. destruct (member s (lit "columns")) as [j|] eqn:M; cbn [getdef] in Mc.
    - destruct j as [| | | | |l|]; try (cbn in Mc; apply Ok_inj in Mc; subst cols; exists []; split; [reflexivity|constructor]).
      apply columns_from; [|exact Mc]. apply Forall_forall. intros x Hx. apply (proj1 (wf_list l) (member_wf _ _ _ Wf M)). exact Hx.
    - cbn in Mc. apply Ok_inj in Mc. subst cols. exists []. split; [reflexivity|constructor]. }
  exists ds, (number_from 0 cols), (match getdef (member s (lit "rowTitles")) (JList []) with JList l => JList l | j => JList [j] end).
  split; [exact Co|]. cbn [o_vals].
  assert (A : forall k y, nth (11 + k) (dv ++ y) (MJ JNull) = nth k y (MJ JNull)) by (intros k y; rewrite app_nth2, Ld by lia; f_equal; lia).
  split; [exact (A 0 _)|]. split; [rewrite (A 3); symmetry; exact Hr|]. split.
  { intros names Hn. unfold row_titles_say. assert (S : forall l ns, mapM (fun x => match x with JStr s0 => Ok s0 | _ => Err OtherError end) l = Ok ns -> l = map JStr ns).
    { clear. induction l as [|x l IH]; intros ns H; cbn [mapM] in H; [apply Ok_inj in H; subst; reflexivity|]. apply bind_inv in H as (y & Hy & H). apply bind_inv in H as (ys & Hys & H). apply Ok_inj in H. subst ns.
      destruct x; try discriminate Hy. apply Ok_inj in Hy. subst y. cbn [map]. f_equal. exact (IH _ Hys). }
    destruct (member s (lit "rowTitles")) as [j|]; cbn [getdef] in Hn.
    - destruct j; unfold all_str in Hn; apply S in Hn; try exact Hn; destruct names as [|n [|]]; try discriminate Hn; injection Hn as Hn; try discriminate Hn. subst. eauto.
    - apply S in Hn. destruct names; [reflexivity|discriminate Hn]. }
  rewrite number_from_length. pose proof (Forall2_length _ _ _ Fo) as Lc. apply mapM_Forall2 in Cs.
  pose proof (Forall2_length _ _ _ Cs) as Lcs. rewrite number_from_length in Lcs.
  split; [symmetry; exact Lc|]. split; [exact (eq_trans (eq_sym Lcs) (eq_sym Lc))|]. intros i d c oc Hd Hc Ho.
  destruct (nth_error_F2 _ _ _ i d Fo Hd) as (o & Hi & Wd & Fd').
  destruct (nth_error_F2 _ _ _ i _ Cs Ho) as (c' & Hc' & Lc'). rewrite Hc in Hc'. injection Hc' as <-.
  rewrite (number_from_nth dtype_of), Hi in Ho. injection Ho as <-. cbn [o_vals].
  destruct (col_ok d o _ c Wd Fd' Lc') as [Lv (j & Hj & Hs)]. split; [exact Lv|]. rewrite Hj. exact Hs.
Qed.

(** ** Tables *)
Hypothesis schema_wf : forall u j, w_fetch_schema W u = Some j -> wf_json j.
Lemma schema_value t so : wf_json (JObj t) -> schema_fromvalue W (getdef (member t (lit "tableSchema")) JNull) = Ok (MObj so) ->
  exists s, schema_object W (member t (lit "tableSchema")) s /\ wf_json (JObj s) /\ fromvalue W (Schema_class W) (JObj s) = Ok so.
Proof.
  intros Wf E. assert (We : wf_json (JObj [])) by (apply wf_obj; split; [constructor|intros k x []]).
  assert (D : forall w, (o <- fromvalue W (Schema_class W) (match w with JObj _ => w | _ => JObj [] end) ;; Ok (MObj o)) = Ok (MObj so) -> fromvalue W (Schema_class W) (JObj (dialect_object w)) = Ok so).
  { intros w X. assert (Q : match w with JObj _ => w | _ => JObj [] end = JObj (dialect_object w)) by (destruct w; reflexivity). rewrite Q in X.
    apply bind_inv in X as (o & X & X2). apply Ok_inj in X2. injection X2 as ->. exact X. }
  unfold schema_fromvalue in E. destruct (member t (lit "tableSchema")) as [j|] eqn:M; cbn [getdef] in E.
  2:{ exists []. split; [apply so_other; discriminate|exact (conj We (D JNull E))]. }
  pose proof (member_wf t _ j Wf M) as Wj.
  destruct j as [|b|z|m|s|l|kvs]; try (match type of M with _ = Some ?jj => exists []; split; [apply so_other; discriminate|exact (conj We (D jj E))] end).
  - destruct (w_fetch_schema W s) as [w|] eqn:Fe; [|discriminate E]. exists (dialect_object w). split; [|split; [|exact (D w E)]].
    + eapply so_link; [exact Fe|]. destruct w; try (right; split; [discriminate|reflexivity]). left; reflexivity.
    + pose proof (schema_wf _ _ Fe) as Ww. destruct w; try exact We. exact Ww.
  - exists kvs. split; [apply so_object|]. split; [exact Wj|exact (D (JObj kvs) E)].
Qed.
Lemma jtable_ok env (g : option (object * mobj B)) t b o x j : wf_json (JObj t) -> fromvalue W (Table_class W) (JObj t) = Ok o ->
  load_table dtype_of true (option_map snd g) o = Ok x ->
  table_described W dtype_of true (match g with Some (gd, _) => [gd] | None => [] end) t x ->
  (forall gd go, g = Some (gd, go) -> forall de, load_desc dtype_of go = Ok de -> level_says W dtype_of gd de) ->
  jtable_of dtype_of env (option_map snd g) b o = Ok j ->
  table_says W dtype_of env (match g with Some (gd, _) => [gd] | None => [] end) t b x j.
Proof.
  intros Wf H L Dx Hg J. pose proof Wf as Nd. apply wf_obj in Nd. destruct Nd as [Nd _].
  destruct (fromvalue_parts _ t o Wf (table_names W) H) as (vals & Fv & E).
  pose proof (common_ok (all_names (Table_class W)) t Nd) as Cm. pose proof (at_id (all_names (Table_class W)) t Nd) as Ai.
  revert E Cm Ai. generalize (sort_items (expected_common (w_tag_ok W) (all_names (Table_class W)) true t)) as common, (sort_items (expected_at (all_names (Table_class W)) true t)) as at_. intros common at_ E Cm Ai.
  cbn [cl_fields Table_class] in Fv. unfold tablelike_fields in Fv. rewrite <- app_assoc in Fv. apply F2_app_inv in Fv. destruct Fv as (dv & cv & -> & Fd & Fc).
  assert (Ld : length dv = 11) by (symmetry; exact (Forall2_length _ _ _ Fd)). cbn [app] in Fc.
  inversion Fc as [|? mdl ? ? Hdl Fc1]; subst. inversion Fc1 as [|? mno ? ? Hno Fc2]; subst. inversion Fc2 as [|? mtd ? ? _ Fc3]; subst.
  inversion Fc3 as [|? msch ? ? Hsch Fc4]; subst. inversion Fc4 as [|? mtr ? ? _ Fc5]; subst. inversion Fc5 as [|? murl ? ? Hurl Fc6]; subst.
  inversion Fc6 as [|? msup ? ? Hsup Fc7]; subst. inversion Fc7; subst. clear Fc Fc1 Fc2 Fc3 Fc4 Fc5 Fc6 Fc7.
  cbn [cl_post Table_class] in E. rewrite tablelike_post_eq in E by exact Ld.
  destruct (match mdl with MJ (JStr s) => _ | _ => _ end) as [dl'|] eqn:Edl; [|discriminate E]. cbn [bind] in E.
  destruct (at_post W at_) as [at2|] eqn:Ap; [|discriminate E]. cbn [bind o_vals] in E.
  assert (A : forall k y, nth (11 + k) (dv ++ y) (MJ JNull) = nth k y (MJ JNull)).
  { intros k y. rewrite app_nth2, Ld by lia. f_equal. lia. }
  rewrite (A 5) in E. cbn [nth] in E. destruct murl as [| | |u| | | | | |]; try discriminate E. apply Ok_inj in E. subst o.
  unfold jtable_of in J. rewrite L in J. cbn [bind] in J.
  apply bind_inv in J as (sch & Ls & J). apply bind_inv in J as (td & Ed & J). apply bind_inv in J as (gd & Eg & J).
  cbn [o_vals o_at o_common] in J. rewrite (A 3), (A 1), (A 6) in J. cbn [nth] in J.
  destruct msch as [| | | | | | | |so|]; try discriminate J. cbn [bind] in J.
  apply bind_inv in J as (rt & Er & J). apply bind_inv in J as (notes & En & J). apply bind_inv in J as (cols & Ec & J). apply Ok_inj in J. subst j.
  assert (Hn : Ok (MJ (getdef (member t (lit "notes")) (JList []))) = Ok mno) by exact Hno. apply Ok_inj in Hn. subst mno. apply Ok_inj in En. subst notes.
  assert (Hsu : Ok (MJ (getdef (member t (lit "suppressOutput")) (JBool false))) = Ok msup) by exact Hsup. apply Ok_inj in Hsu. subst msup. cbn [a_true].
  unfold table_schema in Ls. cbn [o_vals] in Ls. rewrite (A 3) in Ls. cbn [nth] in Ls.
  assert (Hs : schema_fromvalue W (getdef (member t (lit "tableSchema")) JNull) = Ok (MObj so)) by exact Hsch.
  assert (Hso : exists s, schema_object W (member t (lit "tableSchema")) s /\ wf_json (JObj s) /\ fromvalue W (Schema_class W) (JObj s) = Ok so).
  { exact (schema_value t so Wf Hs). }
  destruct Hso as (s & So & Ws & Fs). destruct (schema_parts s so sch Ws Fs Ls) as (Lv & ds & cols' & rj & Co & Ec' & Er' & Rt & Lc & Lsc & Each).
  rewrite Ec' in Ec. apply Ok_inj in Ec. subst cols'. rewrite Er' in Er. specialize (Rt rt Er).
  assert (Tc : Forall2 (fun (c : column V) (tc : tcol V) => tc_col tc = c) (s_columns sch) (t_cols x)).
  { unfold load_table, table_schema in L. cbn [o_vals] in L. rewrite (A 3) in L. cbn [nth] in L. rewrite Ls in L. cbn [bind] in L. rewrite Ed in L. cbn [bind] in L. rewrite Eg in L. cbn [bind] in L.
    apply bind_inv in L as (tcs & Et & L). apply bind_inv in L as (? & _ & L). apply bind_inv in L as (? & _ & L). cbn [o_vals] in L. rewrite (A 5) in L. cbn [nth] in L. apply Ok_inj in L. subst x. cbn [t_cols].
    unfold tcols_of in Et. apply mapM_Forall2 in Et. eapply JsonldProofs.Forall2_weaken; [|exact Et]. intros c tc _ Q. unfold tcol_of in Q. apply bind_inv in Q as (? & _ & Q). apply Ok_inj in Q. subst tc. reflexivity. }
  pose proof (Forall2_length _ _ _ Tc) as Ltc.
  split; cbn [jt_url jt_id jt_notes jt_common jt_table jt_outer jt_lang jt_suppress jt_schema jt_row_titles jt_cols].
  - exact Dx.
  - unfold url_text. destruct (resolve env b (t_url x)); reflexivity.
  - destruct (at_post_id at_ at2 Ap) as [I1 I2]. split.
    + intros M. apply I1. rewrite Ai, M. reflexivity.
    + intros v M. apply I2. rewrite Ai, M. reflexivity.
  - destruct (member t (lit "notes")); reflexivity.
  - exact Cm.
  - exact (level_ok t _ _ _ dv _ td Fd Ed).
  - destruct g as [[go gm]|]; cbn [option_map snd] in Eg.
    + apply bind_inv in Eg as (de & Eo & Eg). apply Ok_inj in Eg. subst gd. constructor; [exact (Hg go gm eq_refl de Eo)|constructor].
    + apply Ok_inj in Eg. subst gd. constructor.
  - reflexivity.
  - destruct (member t (lit "suppressOutput")) as [v|]; cbn [getdef]; [|split; [discriminate|intros (? & ? & _); discriminate]]. split; [eauto|]. intros (v' & E & T). injection E as ->. exact T.
  - exists s, ds. split; [exact So|]. split; [exact Co|]. split; [exact Lv|]. split; [exact Rt|]. rewrite map_map. cbn [jc_col]. split.
    + assert (Q : length (t_cols x) = length cols) by (rewrite <- Ltc, Lsc; symmetry; exact Lc). clear -Q. revert cols Q. induction (t_cols x) as [|c l IH]; intros [|o cols] Q; try discriminate Q; [reflexivity|]. cbn [combine map fst]. f_equal. apply IH. injection Q as Q. exact Q.
    + clear -Each Tc Lc Lsc. revert ds cols Each Lc Lsc. induction Tc as [|c tc cs tcs E Tc IH]; intros [|d ds] [|oc cols] Each Lc Lsc; try discriminate Lc; try discriminate Lsc; [constructor|].
      cbn [combine map fst snd]. constructor.
      * destruct (Each 0 d c oc eq_refl eq_refl eq_refl) as [E1 E2]. cbn [jc_suppress]. unfold jdesc. cbn [jc_col]. rewrite E. split; [exact E1|exact E2].
      * apply IH; [|injection Lc as Lc; exact Lc|injection Lsc as Lsc; exact Lsc]. intros i d' c' oc' H1 H2 H3. exact (Each (S i) d' c' oc' H1 H2 H3).
Qed.
End Says.
