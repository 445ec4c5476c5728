(** C70: tables, the group, all together. *)
From Coq Require Import Permutation.
From Verif Require Import PyStr Dsv Json Dec Dialects DialectSpec NatLang Datatype DatatypeSpec DatatypeProofs Meta MetaSpec MetaProofs MetaProofs2 MetaProofs3 DsvProofs4 Names Zip Locate LocateSpec LocateProofs
  Column Schema Table TableSpec Files Descr DescrSpec DescrProofs DescrProofs2 DescrProofs3 DescrProofs4 DescrProofs5 Load LoadSpec LoadProofs LoadProofs2 LoadProofs3 LoadProofs4 LoadProofs5 FrictionlessProofs2
  WarnSpec Cli CliSpec CliProofs1 CliProofs2 CliProofs3 CliProofs4 Frictionless Markdown MarkdownProofs3 MarkdownProofs4 MarkdownProofs5 ToMd ToMdSpec ToMdProofs1 ToMdProofs2.
From Verif Require JsonTextProofs JsonldProofs ToJsonSpec ToJsonProofs2 MarkdownSpec.
Local Open Scope nat_scope.
Section Tabs.
Context {B : Type} (W : world B).
Variables (bound_str : B -> pystr) (present : pystr -> bool).
Hypothesis Us : usual W.

Lemma schema_read s so sch cs cols : wf_json (JObj s) -> fromvalue W (Schema_class W) (JObj s) = Ok so -> load_schema (load_dtype W) false so = Ok sch ->
  nth 11 (o_vals so) (MJ JNull) = MObjs cs -> mapM (md_column W bound_str) cs = Ok cols ->
  exists ds, columns_of s ds /\ primary_key_says s ds (s_primaryKey sch) /\ foreign_keys_say s (s_foreignKeys sch) /\ Forall2 (column_read W bound_str) ds cols.
Proof.
  intros Wf H L N11 Mc. 
  assert (exists ds cols0, columns_of s ds /\ Forall2 (fun d o => wf_json (JObj d) /\ fromvalue W (Column_class W) (JObj d) = Ok o) ds cols0 /\ cs = number_from 0 cols0) as (ds & cols0 & Co & Fo & ->).
  { clear L Mc. destruct (fromvalue_members W _ s so Wf (schema_names W) H) as (common & at_ & vals & Fv & E & _).
    cbn [cl_fields Schema_class] in Fv. unfold schema_fields in Fv. apply F2_app_inv in Fv. destruct Fv as (dv & cv & -> & Fd & Fc).
    assert (Ld : length dv = 11) by (symmetry; exact (Forall2_length _ _ _ Fd)).
    inversion Fc as [|? mcols ? ? Hcols Fc1]; subst. inversion Fc1 as [|? mfks ? ? Hfks Fc2]; subst. inversion Fc2 as [|? mpk ? ? Hpk Fc3]; subst.
    inversion Fc3 as [|? mrow ? ? Hrow Fc4]; subst. inversion Fc4; subst. clear Fc Fc1 Fc2 Fc3 Fc4.
    assert (Hc : (cols <- mapM (fromvalue W (Column_class W)) (dict_items (match getdef (member s (lit "columns")) (JList []) with JList l => l | _ => [] end)) ;; Ok (MObjs cols)) = Ok mcols) by exact Hcols.
    destruct (mapM _ _) as [cols0|] eqn:Mc in Hc; [|discriminate Hc]. cbn [bind] in Hc. apply Ok_inj in Hc. subst mcols.
    cbn [cl_post Schema_class] in E. unfold schema_post in E. cbn [o_vals o_num o_common o_at] in E.
    assert (Sk : forall x, skipn 11 (dv ++ x) = x) by (intros x; rewrite <- Ld, skipn_app, skipn_all, Nat.sub_diag; reflexivity).
    assert (Fn : forall x, firstn 11 (dv ++ x) = dv) by (intros x; rewrite <- Ld, firstn_app, firstn_all, Nat.sub_diag; cbn; apply app_nil_r).
    rewrite Sk in E. destruct mpk as [pk| | | | | | | | |]; try discriminate E. destruct (cols_ok false [] cols0) as [[]|] eqn:Ck; [|discriminate E]. cbn [bind] in E.
    destruct (pk_ok _ _ _) as [pk'|] eqn:P; [|discriminate E]. cbn [bind] in E. apply Ok_inj in E. subst so. cbn [o_vals] in N11. rewrite Fn in N11.
    rewrite app_nth2, Ld in N11 by lia. cbn [nth Nat.sub] in N11. injection N11 as <-.
    assert (exists ds, columns_of s ds /\ Forall2 (fun d o => wf_json (JObj d) /\ fromvalue W (Column_class W) (JObj d) = Ok o) ds cols0) as (ds & Co & Fo).
    { unfold columns_of. destruct (member s (lit "columns")) as [j|] eqn:M; cbn [getdef] in Mc.
      - destruct j as [| | | | |l|]; try (cbn in Mc; apply Ok_inj in Mc; subst cols0; exists []; split; [reflexivity|constructor]).
        apply columns_from; [|exact Mc]. apply Forall_forall. intros x Hx. apply (proj1 (wf_list l) (member_wf _ _ _ Wf M)). exact Hx.
      - cbn in Mc. apply Ok_inj in Mc. subst cols0. exists []. split; [reflexivity|constructor]. }
    exists ds, cols0. split; [exact Co|]. split; [exact Fo|reflexivity]. }
  exists ds. split; [exact Co|]. destruct (schema_keys_from W (load_dtype W) Us false s so sch ds Wf H L Co) as [Kp Kf]. split; [exact Kp|]. split; [exact Kf|].
  apply mapM_Forall2 in Mc. clear -Fo Mc. revert cols Mc. generalize 0. induction Fo as [|d [nn c a v] ds cols0 [Wd Fd] Fo IH]; intros i cols Mc; cbn [number_from] in Mc; inversion Mc as [|? x ? cols' Hx Mc']; subst.
  - constructor.
  - constructor; [|exact (IH _ _ Mc')]. exact (column_ok W bound_str d (MO nn c a v) x Wd Fd _ Hx).
Qed.

Lemma table_ok url t o x : wf_json (JObj t) -> fromvalue W (Table_class W) (JObj t) = Ok o ->
  md_table W bound_str present (option_map parent (fname_of url)) o = Ok x -> table_read W bound_str present url t x.
Proof.
  intros Wf H J. pose proof Wf as Nd. apply wf_obj in Nd. destruct Nd as [Nd _].
  destruct (ToJsonProofs2.fromvalue_parts W _ t o Wf (table_names W) H) as (vals & Fv & E).
  pose proof (ToJsonProofs2.common_ok W (all_names (Table_class W)) t Nd) as Cm. pose proof (at_from_expected (all_names (Table_class W)) t Nd) as Af.
  revert E Cm Af. generalize (sort_items (expected_common (w_tag_ok W) (all_names (Table_class W)) true t)) as common, (sort_items (expected_at (all_names (Table_class W)) true t)) as at_. intros common at_ E Cm Af.
  cbn [cl_fields Table_class] in Fv. unfold tablelike_fields in Fv. rewrite <- app_assoc in Fv. apply F2_app_inv in Fv. destruct Fv as (dv & cv & -> & Fd & Fc).
  assert (Ld : length dv = 11) by (symmetry; exact (Forall2_length _ _ _ Fd)). cbn [app] in Fc.
  inversion Fc as [|? mdl ? ? Hdl Fc1]; subst. inversion Fc1 as [|? mno ? ? Hno Fc2]; subst. inversion Fc2 as [|? mtd ? ? _ Fc3]; subst.
  inversion Fc3 as [|? msch ? ? Hsch Fc4]; subst. inversion Fc4 as [|? mtr ? ? _ Fc5]; subst. inversion Fc5 as [|? murl ? ? Hurl Fc6]; subst.
  inversion Fc6 as [|? msup ? ? Hsup Fc7]; subst. inversion Fc7; subst. clear Fc Fc1 Fc2 Fc3 Fc4 Fc5 Fc6 Fc7.
  cbn [cl_post Table_class] in E. rewrite tablelike_post_eq in E by exact Ld.
  destruct (match mdl with MJ (JStr s) => _ | _ => _ end) as [dl'|] eqn:Edl; [|discriminate E]. cbn [bind] in E.
  destruct (at_post W at_) as [at2|] eqn:Ap; [|discriminate E]. cbn [bind o_vals] in E.
  assert (A : forall k y, nth (11 + k) (dv ++ y) (MJ JNull) = nth k y (MJ JNull)).
  { intros k y. rewrite app_nth2, Ld by lia. f_equal. lia. }
  rewrite (A 5) in E. cbn [nth] in E. destruct murl as [| | |u| | | | | |]; try discriminate E. apply Ok_inj in E. subst o.
  unfold md_table in J. apply bind_inv in J as (sch & Ls & J). cbn [o_vals o_common] in J. rewrite (A 3), (A 0), (A 5) in J. cbn [nth] in J.
  apply bind_inv in J as (so & Es & J). apply bind_inv in J as (cs & Ec & J). apply bind_inv in J as (cols & Mc & J). apply bind_inv in J as (dl & Dl & J). apply Ok_inj in J. subst x.
  destruct msch as [| | | | | | | |so'|]; try discriminate Es. apply Ok_inj in Es. subst so'.
  destruct (nth 11 (o_vals so) (MJ JNull)) as [| | | | | | | | |cs'] eqn:N11; try discriminate Ec. apply Ok_inj in Ec. subst cs'.
  unfold table_schema in Ls. cbn [o_vals] in Ls. rewrite (A 3) in Ls. cbn [nth] in Ls.
  assert (Hs : schema_fromvalue W (getdef (member t (lit "tableSchema")) JNull) = Ok (MObj so)) by exact Hsch.
  destruct (ToJsonProofs2.schema_value W (us_schema _ Us) t so Wf Hs) as (s & So & Ws & Fs).
  destruct (schema_read s so sch cs cols Ws Fs Ls N11 Mc) as (ds & Co & Kp & Kf & Cr).
  split; cbn [mt_url mt_props mt_dialect mt_datatype mt_exists mt_pk mt_fks mt_cols].
  - assert (Hu : (match getdef (member t (lit "url")) JNull with JNull => Ok (MJ JNull) | JStr s => Ok (MLink s) | _ => Err ValueError end) = Ok (MLink u)) by exact Hurl.
    destruct (member t (lit "url")) as [[]|]; try discriminate Hu. cbn [getdef] in Hu. apply Ok_inj in Hu. injection Hu as ->. reflexivity.
  - exact Cm.
  - exact (md_dialect_ok W Us t at_ mdl dl' dl Wf Af Hdl Edl Dl).
  - inversion Fd as [|? m0 ? ? _ G1]; subst. inversion G1 as [|? m1 ? ? H1 G2]; subst. exact (type_ok W bound_str t m1 Wf H1).
  - unfold fname_of. destruct (is_url url) eqn:U; cbn [option_map].
    + apply is_url_iff in U. split; [discriminate|intros [R _]; contradiction].
    + apply is_url_false in U. split; [intros P; split; [exact U|exact P]|intros [_ P]; exact P].
  - exists s, ds, (s_primaryKey sch), (s_foreignKeys sch). split; [exact So|]. split; [exact Co|]. split; [exact Kp|].
    split; [destruct (s_primaryKey sch); reflexivity|]. split; [exact Kf|]. split; [|exact Cr].
    clear. induction (s_foreignKeys sch) as [|k l IH]; cbn [map]; constructor; [repeat split|exact IH].
Qed.

Lemma group_ok url md o g own : wf_json (JObj md) -> fromvalue W (TableGroup_class W) (JObj md) = Ok o -> at_str (o_at o) (lit "base") = Ok own ->
  md_group W bound_str present url o = Ok g -> group_read W bound_str present url md g /\ own_base_is md own.
Proof.
  intros Wf H Eb J. unfold md_group in J. destruct (nth 17 (o_vals o) (MJ JNull)) as [| | | | | | | | |ts] eqn:N17; try discriminate J.
  apply bind_inv in J as (tabs & Mt & J). apply bind_inv in J as (dl & Dl & J). apply Ok_inj in J. subst g.
  destruct (group_objects W (load_dtype W) md o ts Wf H N17) as [(ds & T & Wd & Fo) _].
  pose proof Wf as Nd. apply wf_obj in Nd. destruct Nd as [Nd _].
  destruct (ToJsonProofs2.fromvalue_parts W _ md o Wf (group_names W) H) as (vals & Fv & E). clear H.
  pose proof (ToJsonProofs2.common_ok W (all_names (TableGroup_class W)) md Nd) as Cm. pose proof (at_from_expected (all_names (TableGroup_class W)) md Nd) as Af.
  revert E Cm Af. generalize (sort_items (expected_common (w_tag_ok W) (all_names (TableGroup_class W)) true md)) as common, (sort_items (expected_at (all_names (TableGroup_class W)) true md)) as at_. intros common at_ E Cm Af.
  cbn [cl_fields TableGroup_class] in Fv. unfold tablelike_fields in Fv. rewrite <- app_assoc in Fv. apply F2_app_inv in Fv. destruct Fv as (dv & cv & -> & Fd & Fc).
  assert (Ld : length dv = 11) by (symmetry; exact (Forall2_length _ _ _ Fd)). cbn [app] in Fc. inversion Fc as [|? mdl ? ? Hdl Fc1]; subst. clear Fc.
  cbn [cl_post TableGroup_class] in E. rewrite tablelike_post_eq in E by exact Ld.
  apply bind_inv in E as (dl' & Edl & E). apply bind_inv in E as (at2 & Ap & E). apply Ok_inj in E. subst o. cbn [o_vals o_common o_at] in *.
  assert (A : forall k y, nth (11 + k) (dv ++ y) (MJ JNull) = nth k y (MJ JNull)).
  { intros k y. rewrite app_nth2, Ld by lia. f_equal. lia. }
  rewrite (A 0) in Dl. cbn [nth] in Dl. split; [split; cbn [mg_props mg_fname mg_dialect mg_tables]|].
  - exact Cm.
  - unfold fname_of. destruct (is_url url) eqn:U; cbn [option_map].
    + apply is_url_iff in U. split; [reflexivity|intros R; contradiction].
    + apply is_url_false in U. split; [intros R; contradiction|reflexivity].
  - exact (md_dialect_ok W Us md at_ mdl dl' dl Wf Af Hdl Edl Dl).
  - exists ds. split; [exact T|]. apply mapM_Forall2 in Mt. clear -Us Wd Fo Mt. revert tabs Mt. induction Fo as [|t ot ds ts Ho Fo IH]; intros tabs Mt; inversion Mt as [|? x ? tabs' Hx Mt']; subst; constructor.
    + inversion_clear Wd as [|? ? W1 W2]. exact (table_ok url t ot x W1 Ho Hx).
    + inversion_clear Wd as [|? ? W1 W2]. exact (IH W2 _ Mt').
  - destruct (at_post_keeps W at_ at2 Ap) as [_ Kb]. unfold at_str in Eb. rewrite Kb in Eb by discriminate. rewrite (at_get md at_ (lit "base") Nd Af) in Eb by discriminate.
    change (lit "@" ++ lit "base") with (lit "@base") in Eb. unfold own_base_is. destruct (member md (lit "@base")) as [[]|]; try discriminate Eb; apply Ok_inj in Eb; subst own; reflexivity.
Qed.

(** ** All together *)
Lemma tables_nodup url md g : group_read W bound_str present url md g -> Forall (fun t => NoDup (map fst (mt_props t))) (mg_tables g).
Proof.
  intros Gr. destruct (gr_tables _ _ _ _ _ _ Gr) as (ts & _ & F). clear -F. induction F as [|t x ts xs R F IH]; constructor; [|exact IH]. exact (proj1 (br_props _ _ _ _ _ _ R)).
Qed.
Variables (U : unicode) (str_of : json -> pystr) (space word : N -> bool).
Variables (w : web) (env : fenv) (stem : pystr -> pystr).
Hypothesis Wj : forall t j, wb_json w t = Some j -> wf_json j.
Theorem shown url text : space 124 = false -> word 124 = false -> MarkdownSpec.one_line_text (str_of JNull) ->
  csvw2markdown W U str_of space word w env stem bound_str present url = Ok text ->
  shows_metadata W U str_of space word w env stem bound_str present url text.
Proof.
  intros Hs Hw Hn H. unfold csvw2markdown in H. apply bind_inv in H as (o & Fo & H). apply bind_inv in H as (g & G & H).
  unfold group_from in Fo. apply bind_inv in Fo as (r & J & Fo). destruct r as [[| | | | | |md]|]; try discriminate Fo.
  apply get_json_ok in J. destruct J as (t & D & J). pose proof (Wj _ _ J) as Wf.
  apply bind_inv in Fo as (jm & F & Fo). apply bind_inv in Fo as (o' & Fv & Fo). apply bind_inv in Fo as (own & Eb & Fo). apply Ok_inj in Fo. subst o'.
  assert (X : exists md', jm = JObj md' /\ wf_json (JObj md') /\ (forall b, member md' (lit "@base") = Some (JStr b) -> metadata_as_used env stem url md md') /\ (member md' (lit "@base") = None -> metadata_as_used env stem url md md')).
  { destruct (is_url url) eqn:Uu.
    - pose proof (from_url_wf env stem url _ _ Wf F) as Wf'. destruct (from_url_web env stem url _ _ Wf F) as (md' & -> & Mb & Wm). exists md'. split; [reflexivity|]. split; [exact Wf'|]. rewrite Mb. split; [|discriminate].
      intros b E. injection E as E. apply is_url_iff in Uu. split; [intros _; exact (Wm b E)|intros Nr; contradiction].
    - apply Ok_inj in F. subst jm. exists md. split; [reflexivity|]. split; [exact Wf|]. apply is_url_false in Uu. split; intros; (split; [intros R; contradiction|reflexivity]). }
  destruct X as (md' & -> & Wf' & Mb & Mn). destruct (group_ok url md' o g own Wf' Fv Eb G) as [Gr Ob].
  exists t, md, md', g. split; [exact D|]. split; [exact J|]. split; [destruct own as [b|]; [exact (Mb b Ob)|exact (Mn Ob)]|]. split; [exact Gr|]. split.
  { apply (proj1 (renders U str_of space word g true (proj1 (gr_props _ _ _ _ _ _ Gr)) (tables_nodup url md' g Gr))). exists text. exact H. }
  intros Tg. exact (document_ok U str_of space word Hs Hw Hn g true text H Tg).
Qed.
End Tabs.
