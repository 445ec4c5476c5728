(** csvw2json, put together (C69). *)
From Coq Require Import Permutation.
From Verif Require Import PyStr Dsv Json Dec Dialects NatLang Datatype Meta MetaSpec MetaProofs MetaProofs2 MetaProofs3 DsvProofs4 Zip Locate LocateSpec LocateProofs
  Column ColumnSpec ColumnProofs Schema Table TableSpec Files Jsonld Csv2json Csv2jsonSpec Csv2jsonProofs Csv2jsonProofs2 Descr DescrSpec DescrProofs DescrProofs3 DescrProofs4 DescrProofs5 Load LoadSpec LoadProofs LoadProofs2 LoadProofs3 LoadProofs4 FrictionlessProofs2
  WarnSpec Props_Locate Props_JsonText Cli CliSpec CliProofs1 CliProofs2 CliProofs3 CliProofs4 CliProofs5 ToJson ToJsonSpec ToJsonProofs1 ToJsonProofs2.
From Verif Require JsonText JsonTextProofs JsonldProofs.
Local Open Scope nat_scope.
Section All.
Context {B V : Type} (W : world B) (dtype_of : mobj B -> dtype V) (sc : scalars V) (F : pystr -> json_fns V).
Variables (lim : N) (w : web) (env : fenv) (fs : files) (stem : pystr -> pystr).
Hypothesis Us : usual W.
Hypothesis Wj : forall t j, wb_json w t = Some j -> wf_json j.

Lemma group_parts md o : wf_json (JObj md) -> fromvalue W (TableGroup_class W) (JObj md) = Ok o ->
  common_says W md (o_common o) /\ forall de, load_desc dtype_of o = Ok de -> level_says W dtype_of md de.
Proof.
  intros Wf H. pose proof Wf as Nd. apply wf_obj in Nd. destruct Nd as [Nd _].
  destruct (fromvalue_parts W _ md o Wf (group_names W) H) as (vals & Fv & E).
  pose proof (common_ok W (all_names (TableGroup_class W)) md Nd) as Cm.
  revert E Cm. generalize (sort_items (expected_common (w_tag_ok W) (all_names (TableGroup_class W)) true md)) as common, (sort_items (expected_at (all_names (TableGroup_class W)) true md)) as at_. intros common at_ E Cm.
  cbn [cl_fields TableGroup_class] in Fv. unfold tablelike_fields in Fv. rewrite <- app_assoc in Fv. apply F2_app_inv in Fv. destruct Fv as (dv & cv & -> & Fd & Fc).
  assert (Ld : length dv = 11) by (symmetry; exact (Forall2_length _ _ _ Fd)). cbn [app] in Fc. inversion Fc as [|? mdl ? ? Hdl Fc1]; subst. clear Fc.
  cbn [cl_post TableGroup_class] in E. rewrite tablelike_post_eq in E by exact Ld.
  apply bind_inv in E as (dl' & _ & E). apply bind_inv in E as (at2 & _ & E). apply Ok_inj in E. subst o. cbn [o_common]. split; [exact Cm|].
  intros de Ed. exact (level_ok W dtype_of md _ _ _ dv _ de Fd Ed).
Qed.
Lemma common_proper d kvs : common_says W d kvs -> NoDup (map fst kvs) /\ forall k, In k (map fst kvs) -> char_mem 58 k = true.
Proof.
  intros [N C]. split; [exact N|]. intros k I. apply in_map_iff in I. destruct I as ([k' v] & <- & I). apply C in I. destruct I as (v0 & (_ & I & _) & _). apply char_mem_In. exact I.
Qed.
Definition said (outer : list object) (t : object) (s : @jsource V) : Prop := table_says W dtype_of env outer t (jo_base s) (jo_checked s) (jo_table s).
Lemma said_becomes outer t s : said outer t s -> map jc_col (jt_cols (jo_table s)) = t_cols (jo_checked s) /\ proper_common (jo_table s).
Proof.
  intros S. split; [destruct (js_schema _ _ _ _ _ _ _ _ S) as (? & ? & _ & _ & _ & _ & E & _); exact E|]. exact (common_proper t _ (js_common _ _ _ _ _ _ _ _ S)).
Qed.
(** ** The tables *)
Lemma group_sources url md o ts g ss : wf_json (JObj md) -> fromvalue W (TableGroup_class W) (JObj md) = Ok o -> nth 17 (o_vals o) (MJ JNull) = MObjs ts ->
  load_group W dtype_of true o = Ok g ->
  mapM (fun xo => source_of_table dtype_of env (Some o) (Files.base_of env {| Files.gr_tables := Files.gr_tables g; Files.gr_dialect := Files.gr_dialect g; Files.gr_base := Files.gr_base g; Files.gr_ctx := Files.gr_ctx g; Files.gr_fname := fname_of url; Files.gr_doc := Files.gr_doc g |} (t_ctx (fst xo)))
    (Files.dialect_of {| Files.gr_tables := Files.gr_tables g; Files.gr_dialect := Files.gr_dialect g; Files.gr_base := Files.gr_base g; Files.gr_ctx := Files.gr_ctx g; Files.gr_fname := fname_of url; Files.gr_doc := Files.gr_doc g |} (fst xo)) (snd xo)) (combine (Files.gr_tables g) ts) = Ok ss ->
  group_converted W dtype_of env url md (map becoming ss) /\ Forall (fun s => exists outer t, said outer t s) ss.
Proof.
  intros Wf H N17 Lg M. destruct (group_objects W dtype_of md o ts Wf H N17) as [(ds & T & Wd & Fo) Dg]. destruct (group_parts md o Wf H) as [_ Lv].
  assert (Gd : group_described W dtype_of true md g).
  { apply (group_loaded W dtype_of (us_schema _ Us) (us_dialect _ Us)); [exact Wf|]. unfold group_from_json. rewrite H. exact Lg. }
  set (g' := {| Files.gr_tables := Files.gr_tables g; Files.gr_dialect := Files.gr_dialect g; Files.gr_base := Files.gr_base g; Files.gr_ctx := Files.gr_ctx g; Files.gr_fname := fname_of url; Files.gr_doc := Files.gr_doc g |}) in *.
  assert (Gb : Files.gr_base g' = Files.gr_base g /\ Files.gr_fname g' = fname_of url /\ Files.gr_dialect g' = Files.gr_dialect g) by (repeat split).
  assert (Mt : Forall2 (fun o' x => load_table dtype_of true (Some o) o' = Ok x) ts (Files.gr_tables g)).
  { unfold load_group in Lg. rewrite N17 in Lg. apply bind_inv in Lg as (xs & Mx & Lg). apply bind_inv in Lg as (? & _ & Lg). apply bind_inv in Lg as (? & _ & Lg). apply bind_inv in Lg as (? & _ & Lg). apply Ok_inj in Lg. rewrite <- Lg. cbn [Files.gr_tables]. apply mapM_Forall2 in Mx. exact Mx. }
  assert (All : Forall2 (fun t s => said [md] t s /\ base_for env url (Files.gr_base g) (t_ctx (jo_checked s)) (jo_base s) /\
      jo_dialect s = match t_dialect (jo_checked s), Files.gr_dialect g with Some d, _ => d | None, Some d => d | None, None => meta_dialect end) ds ss).
  { apply mapM_Forall2 in M. clearbody g'. revert Mt M. generalize (Files.gr_tables g). clear - Us Wd Fo Dg Lv Gb. intros xs Mt M. revert xs ss Mt M. induction Fo as [|t ot ds ts Ho Fo IH]; intros xs ss Mt M; inversion Mt as [|? x ? xs' Hx Mt']; subst.
    - inversion M; subst. constructor.
    - cbn [combine] in M. inversion M as [|? s ? ss' Hs M']; subst. inversion_clear Wd as [|? ? Wd1 Wd2]. constructor; [|exact (IH Wd2 _ _ Mt' M')].
      cbn [fst snd] in Hs. unfold source_of_table in Hs. rewrite Hx in Hs. cbn [bind] in Hs. apply bind_inv in Hs as (j & J & Hs). apply Ok_inj in Hs. subst s. cbn [jo_table jo_checked jo_base jo_dialect].
      destruct Gb as (G1 & G2 & G3). split; [|split; [rewrite <- G1; apply base_for_of; exact G2|unfold Files.dialect_of; rewrite G3; reflexivity]].
      unfold said. cbn [jo_table jo_checked jo_base]. apply (jtable_ok W dtype_of (us_schema _ Us) env (Some (md, o)) t _ ot x j Wd1 Ho Hx); [| |exact J].
      + apply (table_from W dtype_of (us_schema _ Us) (us_dialect _ Us) true (Some (md, o)) t ot x Wd1 Ho Hx). intros gd go E de L. injection E as <- <-. exact (Dg de L).
      + intros gd go E de L. injection E as <- <-. exact (Lv de L). }
  split.
  - exists ds, (Files.gr_dialect g), (Files.gr_base g). split; [exact T|]. split; [exact (gd_dialect _ _ _ _ _ Gd)|].
    split; [unfold own_base_is; rewrite (gd_base _ _ _ _ _ Gd); destruct (Files.gr_base g); reflexivity|].
    clear -All. induction All as [|t s ds ss (S & Bf & D) All IH]; cbn [map]; constructor; [|exact IH]. cbn [becoming cv_base cv_dialect cv_table cv_json]. split; [exact S|]. split; [exact Bf|exact D].
  - clear -All. induction All as [|t s ds ss (S & _) All IH]; constructor; [eauto|exact IH].
Qed.
Lemma lone_source url (nh : bool) md o x own s : wf_json (JObj md) -> fromvalue W (Table_class W) (JObj md) = Ok o -> load_table dtype_of true None o = Ok x -> at_str (o_at o) (lit "base") = Ok own ->
  source_of_table dtype_of env None (lone_base (V := V) env own (fname_of url) (t_ctx x)) (if nh then without_header match t_dialect x with Some d => d | None => meta_dialect end else match t_dialect x with Some d => d | None => meta_dialect end) o = Ok s ->
  lone_converted W dtype_of env url nh md (becoming s) /\ said [] md s.
Proof.
  intros Wf H L Eo Hs. unfold source_of_table in Hs. rewrite L in Hs. cbn [bind] in Hs. apply bind_inv in Hs as (j & J & Hs). apply Ok_inj in Hs. subst s.
  set (d := match t_dialect x with Some d => d | None => meta_dialect end) in *.
  assert (S : said [] md {| jo_table := j; jo_checked := x; jo_base := lone_base (V := V) env own (fname_of url) (t_ctx x); jo_dialect := if nh then without_header d else d |}).
  { unfold said. cbn [jo_table jo_checked jo_base]. apply (jtable_ok W dtype_of (us_schema _ Us) env None md _ o x j Wf H L); [| |exact J].
    - apply (table_from W dtype_of (us_schema _ Us) (us_dialect _ Us) true None md o x Wf H L). intros gd go E; discriminate E.
    - intros gd go E; discriminate E. }
  split; [|exact S]. exists own. cbn [becoming cv_base cv_dialect cv_table cv_json jo_table jo_checked jo_base jo_dialect]. split; [exact (table_own_base W md o own Wf H Eo)|]. split; [exact S|].
  split; [exact (base_for_of env {| Files.gr_tables := []; Files.gr_dialect := None; Files.gr_base := own; Files.gr_ctx := t_ctx x; Files.gr_fname := fname_of url; Files.gr_doc := Ok JNull |} url _ eq_refl)|].
  exists d. split; [reflexivity|]. split; intros ->; reflexivity.
Qed.
Lemma all_ok nometa ss os : Forall (fun s => exists outer t, said outer t s) ss -> mapM (source_json sc F lim env fs nometa) (filter (fun s => negb (jt_suppress (jo_table s))) ss) = Ok os ->
  all_become sc F lim env fs nometa (map becoming ss) os.
Proof.
  intros Sd M. unfold all_become. apply mapM_Forall2 in M. revert os M. induction Sd as [|s ss (outer & t & S) Sd IH]; intros os M; cbn [filter map] in *; [inversion M; subst; constructor|].
  cbn [becoming cv_json]. destruct (negb (jt_suppress (jo_table s))); [|exact (IH os M)]. inversion M as [|? o ? os' Ho M']; subst. constructor; [|exact (IH os' M')].
  destruct (said_becomes _ _ _ S) as [E P]. exact (becomes_ok sc F lim env fs nometa s o E P Ho).
Qed.
(** ** The group *)
Lemma only_named_iff md : forallb (fun k => str_mem k [lit "@context"; lit "url"]) (map fst md) && str_mem (lit "@context") (map fst md) && str_mem (lit "url") (map fst md) = true <-> only_named md.
Proof.
  rewrite !andb_true_iff, forallb_forall, !str_mem_In. unfold only_named. split.
  - intros [[A C] U] k. split; [intros I; apply A in I; apply str_mem_In in I; cbn [In] in I; destruct I as [I|[I|[]]]; auto|intros [->| ->]; assumption].
  - intros A. split; [split|]; [intros k I; apply str_mem_In; apply A in I; cbn [In]; destruct I; auto|apply A; auto|apply A; auto].
Qed.
Lemma update_plain (r r' : list (pystr * jout V)) kvs fl : (forall k o, In (k, o) r -> exists i, o = OJson i) -> update_props fl r kvs = Ok r' -> forall k o, In (k, o) r' -> exists i, o = OJson i.
Proof.
  intros Hr H. unfold update_props in H. apply bind_inv in H as (j & _ & H). destruct j as [| | | | | |l]; try discriminate H. apply Ok_inj in H. subst r'. revert r Hr. induction l as [|[k v] l IH]; intros r Hr; [exact Hr|].
  cbn [map]. unfold dset_all in *. cbn [fold_left]. apply IH. intros k' o I. cbn [fst snd] in I. apply dset_In in I. destruct I as [[_ ->]|I]; [eauto|exact (Hr k' o I)].
Qed.

Lemma group_common_ok md md' (o : mobj B) c : member md (lit "tables") <> None -> common_says W md' (o_common o) ->
  match o_common o with p :: ps => update_props (V := V) true [] (p :: ps) | [] => Ok [] end = Ok c ->
  (forall k o, In (k, o) c -> exists i, o = OJson i) /\ group_common W md md' (plain_of c).
Proof.
  intros Mt Cs H. destruct (common_proper md' _ Cs) as [Nd Col].
  assert (U : update_props (V := V) true [] (o_common o) = Ok c) by (destruct (o_common o); [apply Ok_inj in H; subst c; reflexivity|exact H]). clear H.
  split; [apply (update_plain [] c (o_common o) true); [intros k x []|exact U]|].
  destruct (update_ok true [] c (o_common o) Nd Col U) as (_ & Vals & Keys). destruct Cs as [_ Cs].
  split; [intros E; contradiction|]. intros _. split.
  - intros k v P. assert (I : In (k, MetaSpec.clean (w_tag_ok W) v) (o_common o)) by (apply Cs; eauto). destruct (Vals _ _ I) as (j & J & G). exists j. split; [exact J|].
    apply dget_plain. exact G.
  - intros k I. apply plain_keys in I. apply Keys in I. destruct I as [[]|[->|I]]; [left; reflexivity|right]. apply in_map_iff in I. destruct I as ([k' v] & <- & I). apply Cs in I. destruct I as (v0 & P & _). eauto.
Qed.
(** ** All together *)
Theorem printed shows url text : csvw2json W dtype_of sc F lim w env fs stem shows url = Ok text -> prints W dtype_of sc F lim w env fs stem shows url text.
Proof.
  intros H. unfold csvw2json in H. apply bind_inv in H as ([[nm common] ss] & Src & H). cbn [fst snd] in H. apply bind_inv in H as ([c os] & Sj & H). apply bind_inv in H as (j & Rj & H). apply Ok_inj in H. subst text.
  unfold sources_json in Sj. apply bind_inv in Sj as (c' & Cj & Sj). apply bind_inv in Sj as (os' & Oj & Sj). apply Ok_inj in Sj. injection Sj as -> ->.
  unfold json_source in Src. apply bind_inv in Src as (op & Op & Src). apply bind_inv in Src as (jm & J & Src).
  pose proof (open_used w url op Op) as [Mu Nh]. pose proof (open_wf w url op Wj Op) as Wf.
  pose proof (open_inv _ _ _ _ Op) as (_ & _ & _ & _ & _ & _ & _ & _ & Gr & Nm).
  assert (X : exists md', jm = JObj md' /\ wf_json (JObj md') /\ (forall b, member md' (lit "@base") = Some (JStr b) -> metadata_as_used env stem url (op_md op) md') /\ (member md' (lit "@base") = None -> metadata_as_used env stem url (op_md op) md')).
  { destruct (is_url url) eqn:U.
    - pose proof (from_url_wf env stem url _ _ Wf J) as Wf'. destruct (from_url_web env stem url _ _ Wf J) as (md' & -> & Mb & Wm). exists md'. split; [reflexivity|]. split; [exact Wf'|]. rewrite Mb. split; [|discriminate].
      intros b E. injection E as E. apply is_url_iff in U. split; [intros _; exact (Wm b E)|intros Nr; contradiction].
    - apply Ok_inj in J. subst jm. exists (op_md op). split; [reflexivity|]. split; [exact Wf|]. apply is_url_false in U. split; intros; (split; [intros R; contradiction|reflexivity]). }
  destruct X as (md' & -> & Wf' & Mb & Mn). clear J.
  assert (Ma : forall o, own_base_is md' o -> metadata_as_used env stem url (op_md op) md').
  { intros [b|] E; [exact (Mb b E)|exact (Mn E)]. }
  assert (On : op_nometa op = true <-> only_named (op_md op)) by (rewrite Nm; apply only_named_iff).
  assert (Rt : forall fr, JsonTextSpec.good fr j -> JsonText.loads fr (JsonText.dumps JsonText.indented j) = Some j) by (intros fr G; apply (c58_roundtrip fr _ j); [right; reflexivity|exact G]).
  destruct Gr as [[Gt (t & ts & T)]|[Gt T]]; rewrite Gt in Src.
  - apply bind_inv in Src as (o & Fo & Src). apply bind_inv in Src as (_ & _ & Src). destruct (nth 17 (o_vals o) (MJ JNull)) as [| | | | | | | | |tos] eqn:N17; try discriminate Src.
    apply bind_inv in Src as (g & Lg & Src). cbv zeta in Src. apply bind_inv in Src as (ss' & Ms & Src). apply Ok_inj in Src. injection Src as <- <- ->.
    destruct (group_sources url md' o tos g ss Wf' Fo N17 Lg Ms) as [Gc Sd]. destruct (group_parts md' o Wf' Fo) as [Cs _].
    assert (Mt : member (op_md op) (lit "tables") <> None) by (unfold member; rewrite T; discriminate).
    destruct (group_common_ok (op_md op) md' o c Mt Cs) as [Pl Gco]; [destruct (o_common o); exact Cj|].
    constructor. exists (op_md op), md', (op_nometa op), (map becoming ss), os, (plain_of c), j. split; [exact Mu|].
    split; [destruct Gc as (? & ? & b & _ & _ & Ob & _); exact (Ma b Ob)|]. split; [exact On|].
    split; [split; [intros _; exact Gc|intros E; contradiction]|]. split; [exact (all_ok _ ss os Sd Oj)|]. split; [exact Gco|].
    split; [exact (result_shown_ok shows c os j Pl Rj)|]. split; [reflexivity|exact Rt].
  - apply bind_inv in Src as (o & Fo & Src). apply bind_inv in Src as (x & Lx & Src). apply bind_inv in Src as (own & Eo & Src). cbv zeta in Src. apply bind_inv in Src as (s & Ss & Src). apply Ok_inj in Src. injection Src as <- <- <-.
    destruct (lone_source url (op_no_header op) md' o x own s Wf' Fo Lx Eo Ss) as [Lc Sd]. apply Ok_inj in Cj. subst c.
    constructor. exists (op_md op), md', (op_nometa op), [becoming s], os, [], j. split; [exact Mu|].
    split; [destruct Lc as (b & Ob & _); exact (Ma b Ob)|]. split; [exact On|].
    split. { split; [unfold member; rewrite T; intros X; destruct (X eq_refl)|]. intros _. exists (becoming s), (op_no_header op). split; [reflexivity|]. split; [rewrite Nh, Gt; tauto|exact Lc]. }
    split. { apply (all_ok _ [s] os); [constructor; [eauto|constructor]|exact Oj]. }
    split. { split; [reflexivity|]. unfold member. rewrite T. intros E; destruct (E eq_refl). }
    split; [apply (result_shown_ok shows [] os j); [intros k o' []|exact Rj]|]. split; [reflexivity|exact Rt].
Qed.
End All.
