(** The objects made of the metadata of a package. *)
From Coq Require Import Lia.
From Verif Require Import PyStr Json Dsv DsvProofs4 Frictionless FrictionlessSpec FrictionlessProofs FrictionlessProofs2 Datatype Dialects NatLang Column Meta MetaSpec MetaProofs Descr DescrSpec DescrProofs DescrProofs2 DescrProofs3 DescrProofs4 DescrProofs5
  Load LoadSpec LoadProofs LoadProofs5 ForgetSpec Describe DescribeSpec DescribeProofs.

Section Objects.
Context {B : Type} (W : world B).
Variable str_of : json -> pystr.

Lemma datatype_shows spec d o : wfo d -> expected_base spec <> [] -> In (expected_base spec) (map fst DATATYPES) -> fget d "base" = Some (JStr (expected_base spec)) ->
  datatype_fromvalue W (JObj d) = Ok o -> attr_is (Datatype_class W) o "base" (MJ (JStr (expected_base spec))).
Proof.
  intros Wd Ne Hin Hb H. destruct (datatype_members W (JObj d) o Wd H) as (common & at_ & vals & F & P).
  cbn [type_object] in F. unfold datatype_fields, bound_names in F. cbn [map app] in F.
  repeat (apply F2_cons in F; let E := fresh "E" in destruct F as (? & ? & -> & E & F)). apply F2_nil in F. subst.
  apply base_from in E.
  assert (Tn : type_name d = expected_base spec).
  { unfold type_name. unfold member. unfold fget in Hb. rewrite Hb. rewrite (proj2 (str_mem_In _ _) Hin). reflexivity. }
  destruct E as [-> | ->]; unfold datatype_post in P; cbn [o_vals] in P; [match type of P with match ?x with _ => _ end = _ => destruct x; discriminate P end|].
  match type of P with match ?x with _ => _ end = _ => destruct x as [j| | | | | | | | |]; try discriminate P end.
  destruct (dget str_eqb DATATYPES (type_name d)) as [c|]; [|discriminate P]. apply bind_inv in P. destruct P as ([F keep] & _ & P). apply Ok_inj in P. subst o.
  left. rewrite Tn. reflexivity.
Qed.
Lemma base_known spec : In (expected_base spec) (map fst DATATYPES).
Proof.
  assert (A : forall t, In (assoc type_table t) (map fst DATATYPES)).
  { intros t. unfold type_table. cbn [assoc]. repeat (destruct (str_eq_dec t _); [apply str_mem_In; reflexivity|]). apply str_mem_In. reflexivity. }
  unfold expected_base. destruct (fget spec "type") as [[]|]; try (apply str_mem_In; reflexivity). destruct (fget spec "format") as [[]|]; try apply A.
  destruct (str_eq_dec s (lit "string")); [|apply A]. destruct (str_eq_dec s0 _); [apply str_mem_In; reflexivity|]. destruct (str_eq_dec s0 _); apply str_mem_In; reflexivity.
Qed.
Lemma column_object spec d o : wfo spec -> convert_column_spec str_of spec = Ok d -> fromvalue W (Column_class W) (JObj d) = Ok o -> column_shows W spec o.
Proof.
  intros Ws E H. pose proof (wf_column str_of _ _ Ws E) as Wd.
  destruct (fromvalue_members W _ d o Wd (column_names W) H) as (common & at_ & vals & F & P & _). cbn [cl_post Column_class] in P. apply Ok_inj in P. subst o.
  cbn [cl_fields Column_class] in F. unfold column_fields, description_fields in F. cbn [app] in F.
  repeat (apply F2_cons in F; let E := fresh "E" in destruct F as (? & ? & -> & E & F)). apply F2_nil in F. subst. constructor.
  - intros n Hn.
    assert (Hd : member d (lit "name") = Some (JStr n)).
    { unfold convert_column_spec in E. apply bind_inv in E. destruct E as (n' & Hn' & E). apply bind_inv in E. destruct E as (dt & Hdt & E).
      apply bind_inv in E. destruct E as (c & Hc & E). apply Ok_inj in E. subst d. apply fitem_inv in Hn'. rewrite Hn in Hn'. injection Hn' as <-.
      change (fget (copy_to spec "rdfType" "propertyUrl" (match fget spec "description" with Some t => fset (match fget spec "title" with Some t => if truthy t then fset [(lit "name", JStr n); (lit "datatype", JObj (constrain c dt))] "titles" (JList [t]) else [(lit "name", JStr n); (lit "datatype", JObj (constrain c dt))] | None => [(lit "name", JStr n); (lit "datatype", JObj (constrain c dt))] end) "dc:description" (JList [t]) | None => match fget spec "title" with Some t => if truthy t then fset [(lit "name", JStr n); (lit "datatype", JObj (constrain c dt))] "titles" (JList [t]) else [(lit "name", JStr n); (lit "datatype", JObj (constrain c dt))] | None => [(lit "name", JStr n); (lit "datatype", JObj (constrain c dt))] end end)) "name" = Some (JStr n)).
      rewrite fget_copy. change (str_eqb (lit "name") (lit "propertyUrl")) with false. cbv iota.
      assert (X : fget (match fget spec "title" with Some t => if truthy t then fset [(lit "name", JStr n); (lit "datatype", JObj (constrain c dt))] "titles" (JList [t]) else [(lit "name", JStr n); (lit "datatype", JObj (constrain c dt))] | None => [(lit "name", JStr n); (lit "datatype", JObj (constrain c dt))] end) "name" = Some (JStr n)).
      { destruct (fget spec "title") as [t|]; [destruct (truthy t)|]; reflexivity. }
      destruct (fget spec "description"); [|exact X]. rewrite fget_set. change (str_eqb (lit "name") (lit "dc:description")) with false. exact X. }
    assert (V : x10 = MJ (JStr n)).
    { match goal with X : attr_from d (plain (lit "name") _ _) x10 |- _ => unfold attr_from in X; cbn [fd_name fd_conv plain fd_default] in X; rewrite Hd in X; apply Ok_inj in X; symmetry; exact X end. }
    subst x10. unfold attr_is. cbn [o_vals field_names cl_fields Column_class column_fields description_fields app map combine]. do 11 right. left. reflexivity.
  - intros Fo. pose proof (column_converted str_of spec d Fo E) as C. destruct (cv_datatype _ _ _ C) as (dt & Hdt & Hb & _).
    match goal with X : attr_from d (datatype_field W) ?y |- _ => unfold attr_from in X; change (member d (fd_name (datatype_field W))) with (fget d "datatype") in X; rewrite Hdt in X; cbn [getdef fd_conv datatype_field] in X end.
    assert (Tr : truthy (JObj dt) = true) by (destruct dt; [discriminate Hb|reflexivity]). 
    repeat match goal with X : (if truthy (JObj dt) then _ else _) = Ok _ |- _ => rewrite Tr in X; apply bind_inv in X; let o := fresh "o" in let Ho := fresh "Ho" in destruct X as (o & Ho & X); apply Ok_inj in X; subst end.
    exists o. split.
    + unfold attr_is. cbn [o_vals field_names cl_fields Column_class column_fields description_fields app map combine In]. auto 12.
    + eapply datatype_shows; [|intros X; pose proof (base_known spec) as Y; rewrite X in Y; revert Y; clear; intros Y; apply str_mem_In in Y; discriminate Y|apply base_known|exact Hb|exact Ho].
      exact (wf_fget d "datatype" _ Wd Hdt).
Qed.
Lemma column_numbered spec cols : Forall2 (column_shows W) spec cols -> forall i, Forall2 (column_shows W) spec (number_from i cols).
Proof.
  induction 1 as [|sp c l l' H F IH]; intros i; [constructor|]. cbn [number_from]. destruct c as [n co at_ vals]. cbn [o_vals o_common o_at]. constructor; [|apply IH].
  destruct H as [H1 H2]. constructor; assumption.
Qed.
Lemma schema_object own rmap sch specs d o : wfo sch -> wfo rmap -> convert_table_schema str_of own sch rmap = Ok d -> fget sch "fields" = Some (JList (map JObj specs)) ->
  fromvalue W (Schema_class W) (JObj d) = Ok o -> exists cols, attr_is (Schema_class W) o "columns" (MObjs cols) /\ Forall2 (column_shows W) specs cols.
Proof.
  intros Ws Wm E Hs H. pose proof (wf_schema str_of _ _ _ _ Wm Ws E) as Wd.
  destruct (schema_ok str_of own rmap sch d (dget str_eqb rmap) (fun n => eq_refl) E) as [(specs' & cols & Hs' & Hc & Fc) _ _ _ _].
  assert (specs' = specs).
  { rewrite Hs in Hs'. injection Hs' as X. clear - X. revert specs' X. induction specs as [|a l IH]; intros [|b l'] X; try discriminate X; [reflexivity|]. cbn [map] in X. injection X as -> X. f_equal. apply IH, X. }
  subst specs'.
  destruct (fromvalue_members W _ d o Wd (schema_names W) H) as (common & at_ & vals & F & P & _).
  cbn [cl_fields Schema_class] in F. unfold schema_fields, description_fields in F. cbn [app] in F.
  repeat (apply F2_cons in F; let E := fresh "E" in destruct F as (? & ? & -> & E & F)). apply F2_nil in F. subst.
  match goal with X : attr_from d (columns_field W) ?y |- _ => rename X into Ec; unfold attr_from in Ec; change (member d (fd_name (columns_field W))) with (fget d "columns") in Ec; rewrite Hc in Ec; cbn [getdef fd_conv columns_field] in Ec; rewrite dict_items_objs in Ec; apply bind_inv in Ec; destruct Ec as (os & Mo & Ec); apply Ok_inj in Ec; subst y end.
  cbn [cl_post Schema_class] in P. unfold schema_post in P. cbn [o_vals skipn firstn app o_num o_common o_at] in P.
  match type of P with match ?y with _ => _ end = _ => destruct y as [pk| | | | | | | | |]; try discriminate P end.
  apply bind_inv in P. destruct P as (u & _ & P). apply bind_inv in P. destruct P as (pk' & _ & P). apply Ok_inj in P. subst o.
  exists (number_from 0 os). split.
  - unfold attr_is. cbn [o_vals field_names cl_fields Schema_class schema_fields description_fields app map combine]. do 11 right. left. reflexivity.
  - apply column_numbered. rewrite mapM_map in Mo. apply mapM_Ok_inv in Mo.
    pose proof (wf_fget _ _ _ Ws Hs) as Wl. pose proof (proj1 (wf_list _) Wl) as Wi. clear - Fc Mo Wi. revert os Mo.
    induction Fc as [|sp c l l' H1 F IH]; intros os Mo; inversion Mo as [|? o ? os' Ho Mo']; subst; constructor.
    + eapply column_object; [apply (Wi (JObj sp)); left; reflexivity|exact H1|exact Ho].
    + apply IH; [|exact Mo']. intros x Hx. apply Wi. right. exact Hx.
Qed.
(** a table of a package: its attributes are those expected, and there are 18 *)
Lemma table_object rs r t x : wfo r -> Forall (fun r => wfo r) rs -> convert_table str_of (resource_map rs) r = Ok t -> fromvalue W (Table_class W) (JObj t) = Ok x ->
  table_shows W r x /\ length (o_vals x) = 18%nat.
Proof.
  intros Wr Wrs E H. assert (Wm : wfo (resource_map rs)) by (apply wf_resource_map, Wrs).
  pose proof (wf_table str_of _ _ _ Wm Wr E) as Wt. unfold convert_table in E. apply bind_inv in E. destruct E as (p & Hp & E). apply bind_inv in E. destruct E as (sch & Hs & E).
  apply bind_inv in E. destruct E as (s & Hc & E). apply bind_inv in E. destruct E as (dl & _ & E). apply Ok_inj in E. apply fitem_inv in Hp.
  apply bind_inv in Hs. destruct Hs as (v & Hv & Hs). apply fitem_inv in Hv. apply as_dict_inv in Hs. subst v.
  assert (Mu : member t (lit "url") = Some p) by (subst t; reflexivity). assert (Ms : member t (lit "tableSchema") = Some (JObj s)) by (subst t; reflexivity). clear E.
  pose proof (wf_fget _ _ _ Wr Hv) as Wsch.
  assert (Sf : exists specs, fget sch "fields" = Some (JList (map JObj specs))).
  { pose proof Hc as Hc'. unfold convert_table_schema in Hc'. apply bind_inv in Hc'. destruct Hc' as (fs & Hf & Hc'). apply bind_inv in Hc'. destruct Hc' as (specs & Hsp & _).
    apply fitem_inv in Hf. apply dict_list_inv in Hsp. subst fs. exists specs. exact Hf. }
  destruct Sf as [specs Hf].
  destruct (fromvalue_members W _ t x Wt (table_names W) H) as (common & at_ & vals & F & P & _).
  change (cl_fields (Table_class W)) with (tablelike_fields W ++ [plain (lit "suppressOutput") (JBool false) (fun j => j)]) in F.
  unfold tablelike_fields, description_fields in F. cbn [app] in F.
  repeat (apply F2_cons in F; let E := fresh "E" in destruct F as (? & ? & -> & E & F)). apply F2_nil in F. subst.
  match goal with X : attr_from t (schema_field W) ?y |- _ => rename X into Es; assert (Es' : schema_fromvalue W (getdef (member t (lit "tableSchema")) JNull) = Ok y) by exact Es; rewrite Ms in Es'; cbn [getdef] in Es'; unfold schema_fromvalue in Es'; apply bind_inv in Es'; destruct Es' as (so & Hso & Es'); apply Ok_inj in Es'; subst y end.
  match goal with X : attr_from t (link_field (lit "url")) ?y |- _ => rename X into Eu; unfold attr_from in Eu; cbn [fd_name link_field fd_conv fd_default] in Eu; rewrite Mu in Eu; cbn [getdef] in Eu; set (u := y) in * end.
  cbn [cl_post Table_class] in P. unfold tablelike_post in P. cbn [o_vals skipn o_at o_num o_common firstn app] in P.
  apply bind_inv in P. destruct P as (o' & P' & P). apply bind_inv in P'. destruct P' as (dl' & _ & P'). apply bind_inv in P'. destruct P' as (at1 & _ & P'). apply bind_inv in P'. destruct P' as (at2 & _ & P').
  apply Ok_inj in P'. subst o'. cbn [o_vals nth app] in P.
  destruct (schema_object _ _ _ specs s so Wsch Wm Hc Hf Hso) as (cols & Ac & Fc).
  destruct u as [| | |l| | | | | |] eqn:Eqn; try discriminate P. apply Ok_inj in P. subst x.
  assert (p = JStr l) by (destruct p; try discriminate Eu; apply Ok_inj in Eu; injection Eu as ->; reflexivity). subst p.
  split; [|reflexivity]. constructor.
  - exists l. split; [exact Hp|]. unfold attr_is, field_names. change (cl_fields (Table_class W)) with (tablelike_fields W ++ [plain (lit "suppressOutput") (JBool false) (fun j => j)]).
    unfold tablelike_fields, description_fields. cbn [o_vals app map combine]. do 16 right. left. reflexivity.
  - exists sch, specs, so, cols. split; [exact Hv|]. split; [exact Hf|]. split; [|split; [exact Ac|exact Fc]].
    unfold attr_is, field_names. change (cl_fields (Table_class W)) with (tablelike_fields W ++ [plain (lit "suppressOutput") (JBool false) (fun j => j)]).
    unfold tablelike_fields, description_fields. cbn [o_vals app map combine]. do 14 right. left. reflexivity.
Qed.
Lemma shows_forgets r x x' : table_shows W r x -> length (o_vals x) = 18%nat -> forgets W x x' -> table_shows W r x'.
Proof.
  intros [(p & Hp & Au) (sch & specs & s & cols & Hv & Hf & As & Ac & Fc)] L [->|(a & _ & _ & ->)]; [constructor; [eauto|eauto 10]|].
  destruct x as [n c at_ vals]. cbn [o_vals] in L. do 18 (destruct vals as [|? vals]; [discriminate L|]). destruct vals; [|discriminate L].
  assert (K : forall nm v, lit nm <> lit "dialect" -> attr_is (Table_class W) (MO n c at_ [m; m0; m1; m2; m3; m4; m5; m6; m7; m8; m9; m10; m11; m12; m13; m14; m15; m16]) nm v ->
    attr_is (Table_class W) (set_dialect (MJ JNull) (MO n c at_ [m; m0; m1; m2; m3; m4; m5; m6; m7; m8; m9; m10; m11; m12; m13; m14; m15; m16])) nm v).
  { intros nm v Hn. unfold attr_is, set_dialect, field_names. change (cl_fields (Table_class W)) with (tablelike_fields W ++ [plain (lit "suppressOutput") (JBool false) (fun j => j)]).
    unfold tablelike_fields, description_fields. cbn [o_vals o_num o_common o_at firstn skipn app map combine In fd_name plain dialect_field].
    intros X. repeat (destruct X as [X|X]; [first [solve [clear - X; auto 22]|exfalso; apply Hn; symmetry; exact (f_equal fst X)]|]). destruct X. }
  constructor; [exists p; split; [exact Hp|apply K; [discriminate|exact Au]]|].
  exists sch, specs, s, cols. repeat split; try assumption. apply K; [discriminate|exact As].
Qed.
Lemma forget_tables xs xs' tabs : Forall2 (fun r x => table_shows W r x /\ length (o_vals x) = 18%nat) tabs xs -> Forall2 (forgets W) xs xs' -> Forall2 (table_shows W) tabs xs'.
Proof.
  intros F. revert xs'. induction F as [|r x tabs xs [S L] F IH]; intros xs' G; inversion G; subst; constructor; [eapply shows_forgets; eassumption|auto].
Qed.
Lemma group_object dumps pkg md o : wfo pkg -> to_metadata str_of dumps pkg = Ok md -> fromvalue W (TableGroup_class W) (JObj md) = Ok o ->
  exists rs tabs, resources pkg rs /\ FrictionlessSpec.tables_of rs tabs /\ Forall2 (fun r x => table_shows W r x /\ length (o_vals x) = 18%nat) tabs (tables_in o) /\ length (o_vals o) = 18%nat.
Proof.
  intros Wp E H. pose proof (wf_metadata str_of _ _ _ Wp E) as Wd. pose proof (package_ok str_of dumps pkg md E) as Pc.
  unfold to_metadata in E. apply bind_inv in E. destruct E as (rs & Hr & E). apply bind_inv in E. destruct E as (tabs & Ht & E). apply Ok_inj in E.
  pose proof (wf_resources _ _ Wp Hr) as Wrs. pose proof Hr as Hr'. unfold resources_of in Hr'. apply bind_inv in Hr'. destruct Hr' as (l & Hl & Hr'). apply Ok_inj in Hr'.
  exists l, (filter is_table rs).
  assert (R : resources pkg l).
  { unfold resources. destruct (fget pkg "resources") as [v|]; [apply dict_list_inv, Hl|apply Ok_inj in Hl; symmetry; exact Hl]. }
  split; [exact R|]. split; [subst rs; apply tables_filter|].
  assert (Mt : member md (lit "tables") = match tabs with [] => None | _ => Some (JList (map JObj tabs)) end).
  { destruct tabs as [|t tabs].
    - destruct (pc_tables _ _ _ _ Pc) as (rs' & tabs' & ts & R' & T' & F' & M). change (member md (lit "tables")) with (fget md "tables"). rewrite M.
      assert (l = rs').
      { unfold resources in R, R'. destruct (fget pkg "resources"); [|congruence]. rewrite R in R'. injection R' as X. clear - X. revert rs' X. induction l as [|a l IH]; intros [|b l'] X; try discriminate X; [reflexivity|]. cbn [map] in X. injection X as -> X. f_equal. apply IH, X. }
      subst rs'. assert (tabs' = filter is_table rs).
      { subst rs. pose proof (tables_filter l) as T. clear - T T'. revert T'. generalize dependent (filter is_table (filter (fun r : jdict => fhas r "path") l)). intros u T. revert tabs'.
        induction T as [|r rs l Ta T IH|r rs l Ta T IH]; intros tabs' T'; inversion T'; subst; try contradiction; [reflexivity|f_equal; auto|auto]. }
      subst tabs'. destruct (filter is_table rs) as [|r q]; [inversion F'; reflexivity|]. exfalso. cbn [mapM] in Ht. apply bind_inv in Ht. destruct Ht as (t & _ & Ht). apply bind_inv in Ht. destruct Ht as (u & _ & Ht). discriminate Ht.
    - subst md. unfold member. match goal with |- dget str_eqb (fset ?m "tables" ?v) (lit "tables") = _ => change (fget (fset m "tables" v) "tables" = Some v) end. rewrite fget_set. reflexivity. }
  destruct (fromvalue_members W _ md o Wd (group_names W) H) as (common & at_ & vals & F & P & _).
  change (cl_fields (TableGroup_class W)) with (tablelike_fields W ++ [tables_field W]) in F.
  unfold tablelike_fields, description_fields in F. cbn [app] in F.
  repeat (apply F2_cons in F; let E := fresh "E" in destruct F as (? & ? & -> & E & F)). apply F2_nil in F. subst.
  match goal with X : attr_from _ (tables_field W) ?y |- _ => rename X into Et; unfold attr_from in Et; change (fd_name (tables_field W)) with (lit "tables") in Et; rewrite Mt in Et end.
  cbn [cl_post TableGroup_class] in P. unfold tablelike_post in P. cbn [o_vals skipn o_at o_num o_common firstn app] in P.
  apply bind_inv in P. destruct P as (dl' & _ & P). apply bind_inv in P. destruct P as (at1 & _ & P). apply bind_inv in P. destruct P as (at2 & _ & P).
  apply Ok_inj in P. subst o. split; [|reflexivity]. unfold tables_in. cbn [o_vals nth].
  apply mapM_Ok_inv in Ht.
  destruct tabs as [|t tabs].
  - cbn [getdef] in Et. apply Ok_inj in Et. subst. inversion Ht. constructor.
  - cbn [getdef fd_conv tables_field] in Et.
    assert (X : flat_map (fun x => match x with JObj d => [d] | _ => [] end) (map JObj (t :: tabs)) = t :: tabs).
    { clear. generalize (t :: tabs). induction l as [|e l IH]; [reflexivity|]. cbn [map flat_map app]. rewrite IH. reflexivity. }
    rewrite X in Et. apply bind_inv in Et. destruct Et as (xs & Mx & Et). apply Ok_inj in Et. subst. apply mapM_Ok_inv in Mx. revert Ht Mx.
    clear H. assert (Wt : Forall (fun r => wfo r) (filter is_table (filter (fun r => fhas r "path") l))).
    { rewrite Forall_forall in *. intros y Hy. apply filter_In in Hy. apply Wrs, Hy. }
    revert Wt. generalize (filter is_table (filter (fun r => fhas r "path") l)). generalize (t :: tabs). intros ts tl Wt Ht Mx. revert Wt xs Mx.
    induction Ht as [|r t' tl ts Hc Ht IH]; intros Wt xs Mx; inversion Mx; subst; constructor; inversion Wt; subst; [|auto].
    eapply table_object; [| |exact Hc|eassumption]; assumption.
Qed.
End Objects.
