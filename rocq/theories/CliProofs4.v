(** The tables of a group, and single tables (C64). *)
From Verif Require Import PyStr Dsv Json Dec Dialects NatLang Datatype Meta MetaSpec MetaProofs MetaProofs2 MetaProofs3 DsvProofs4
  Column ColumnSpec ColumnProofs Schema Table TableSpec Zip Locate LocateSpec LocateProofs Files Descr DescrSpec DescrProofs DescrProofs3 DescrProofs4 DescrProofs5 Load LoadSpec LoadProofs LoadProofs2 LoadProofs3 LoadProofs4
  Warn WarnSpec WarnProofs4 QuietSpec Group GroupSpec FrictionlessProofs2 Cli CliSpec CliProofs1 CliProofs3.
Local Open Scope nat_scope.
Section Tabs.
Context {B V : Type} (W : world B) (dtype_of : mobj B -> dtype V) (sc : scalars V) (expand : pystr -> dict V -> res pystr).
Variables (lim : N) (env : fenv) (fs : files).
Hypothesis Us : usual W.

Lemma keyed_from csvw (g : option (object * mobj B)) t o k : wf_json (JObj t) -> fromvalue W (Table_class W) (JObj t) = Ok o ->
  load_keyed dtype_of csvw (option_map snd g) o = Ok k ->
  (forall gd go, g = Some (gd, go) -> forall de, load_desc dtype_of go = Ok de -> desc_from W dtype_of gd de) ->
  table_described W dtype_of csvw (match g with Some (gd, _) => [gd] | None => [] end) t (k_table k) /\ keys_described W t (k_pk k) (k_fks k).
Proof.
  intros Wf H L Hg. unfold load_keyed in L. apply bind_inv in L as (x & Lx & L). apply bind_inv in L as (sch & Ls & L). apply Ok_inj in L. subst k. cbn [k_table k_pk k_fks].
  split; [exact (table_from W dtype_of (us_schema _ Us) (us_dialect _ Us) csvw g t o x Wf H Lx Hg)|exact (table_keys_from W dtype_of Us csvw t o sch Wf H Ls)].
Qed.
Lemma table_own_base t o own : wf_json (JObj t) -> fromvalue W (Table_class W) (JObj t) = Ok o -> at_str (o_at o) (lit "base") = Ok own -> own_base_is t own.
Proof.
  intros Wf H Eb. destruct (fromvalue_members W _ t o Wf (table_names W) H) as (common & at_ & vals & Fv & E & At).
  pose proof Wf as Nd. apply wf_obj in Nd. destruct Nd as [Nd _].
  cbn [cl_fields Table_class] in Fv. unfold tablelike_fields in Fv. rewrite <- app_assoc in Fv. apply F2_app_inv in Fv. destruct Fv as (dv & cv & -> & Fd & Fc).
  assert (Ld : length dv = 11) by (symmetry; exact (Forall2_length _ _ _ Fd)). cbn [app] in Fc.
  inversion Fc as [|? mdl ? ? Hdl Fc1]; subst. inversion Fc1 as [|? mno ? ? _ Fc2]; subst. inversion Fc2 as [|? mtd ? ? _ Fc3]; subst.
  inversion Fc3 as [|? msch ? ? Hsch Fc4]; subst. inversion Fc4 as [|? mtr ? ? _ Fc5]; subst. inversion Fc5 as [|? murl ? ? Hurl Fc6]; subst.
  inversion Fc6 as [|? msup ? ? _ Fc7]; subst. inversion Fc7; subst. clear Fc Fc1 Fc2 Fc3 Fc4 Fc5 Fc6 Fc7.
  cbn [cl_post Table_class] in E. rewrite tablelike_post_eq in E by exact Ld.
  destruct (match mdl with MJ (JStr s) => _ | _ => _ end) as [dl'|] eqn:Edl; [|discriminate E]. cbn [bind] in E.
  destruct (at_post W at_) as [at2|] eqn:Ap; [|discriminate E]. cbn [bind o_vals] in E.
  assert (Q : o_at o = at2). { destruct (nth _ _ _); try discriminate E; apply Ok_inj in E; subst o; reflexivity. }
  rewrite Q in Eb. destruct (at_post_keeps W at_ at2 Ap) as [_ Kb].
  unfold at_str in Eb. rewrite Kb in Eb by discriminate. rewrite (at_get t at_ (lit "base") Nd At) in Eb by discriminate.
  change (lit "@" ++ lit "base") with (lit "@base") in Eb. unfold own_base_is. destruct (member t (lit "@base")) as [[]|]; try discriminate Eb; apply Ok_inj in Eb; subst own; reflexivity.
Qed.
Lemma group_objects g o ts : wf_json (JObj g) -> fromvalue W (TableGroup_class W) (JObj g) = Ok o -> nth 17 (o_vals o) (MJ JNull) = MObjs ts ->
  (exists ds, tables_of g ds /\ Forall (fun d => wf_json (JObj d)) ds /\ Forall2 (fun d o => fromvalue W (Table_class W) (JObj d) = Ok o) ds ts) /\
  forall de, load_desc dtype_of o = Ok de -> desc_from W dtype_of g de.
Proof.
  intros Wf E0 Hts. destruct (fromvalue_members W _ g o Wf (group_names W) E0) as (common & at_ & vals & Fv & E & At).
  cbn [cl_fields TableGroup_class] in Fv. unfold tablelike_fields in Fv. rewrite <- app_assoc in Fv. apply F2_app_inv in Fv. destruct Fv as (dv & cv & -> & Fd & Fc).
  assert (Ld : length dv = 11) by (symmetry; exact (Forall2_length _ _ _ Fd)). cbn [app] in Fc.
  inversion Fc as [|? mdl ? ? Hdl Fc1]; subst. inversion Fc1 as [|? mno ? ? _ Fc2]; subst. inversion Fc2 as [|? mtd ? ? _ Fc3]; subst.
  inversion Fc3 as [|? msch ? ? _ Fc4]; subst. inversion Fc4 as [|? mtr ? ? _ Fc5]; subst. inversion Fc5 as [|? murl ? ? _ Fc6]; subst.
  inversion Fc6 as [|? mtab ? ? Htab Fc7]; subst. inversion Fc7; subst. clear Fc Fc1 Fc2 Fc3 Fc4 Fc5 Fc6 Fc7.
  cbn [cl_post TableGroup_class] in E. rewrite tablelike_post_eq in E by exact Ld.
  destruct (match mdl with MJ (JStr s) => _ | _ => _ end) as [dl'|] eqn:Edl; [|discriminate E]. cbn [bind] in E.
  destruct (at_post W at_) as [at2|] eqn:Ap; [|discriminate E]. cbn [bind o_vals] in E. apply Ok_inj in E. subst o.
  cbn [o_vals] in Hts. assert (A : forall k y, nth (11 + k) (dv ++ y) (MJ JNull) = nth k y (MJ JNull)).
  { intros k y. rewrite app_nth2, Ld by lia. f_equal. lia. }
  rewrite (A 6) in Hts. cbn [nth] in Hts. subst mtab. split.
  - assert (Ht : match getdef (member g (lit "tables")) (JList []) with
                   | JList l => ts <- mapM (fun d => fromvalue W (Table_class W) (JObj d)) (flat_map (fun x => match x with JObj d => [d] | _ => [] end) l) ;; Ok (MObjs ts)
                   | JStr _ | JObj _ => Ok (MObjs []) | _ => Err TypeError end = Ok (MObjs ts)) by exact Htab.
    unfold tables_of. destruct (member g (lit "tables")) as [j|] eqn:M; cbn [getdef] in Ht.
    2:{ cbn in Ht. apply Ok_inj in Ht. injection Ht as <-. exists []. split; [reflexivity|split; constructor]. }
    destruct j as [| | | | |l|]; try discriminate Ht; try (apply Ok_inj in Ht; injection Ht as <-; exists []; split; [reflexivity|split; constructor]).
    destruct (mapM _ _) as [ts'|] eqn:Ml in Ht; [|discriminate Ht]. cbn [bind] in Ht. apply Ok_inj in Ht. injection Ht as ->.
    pose proof (member_wf g _ _ Wf M) as Wl. assert (Fl : Forall wf_json l) by (apply Forall_forall; apply (proj1 (wf_list l) Wl)).
    destruct (objects_items l Fl) as [O1 O2]. eexists. split; [exact O1|]. split; [exact O2|]. apply mapM_Forall2 in Ml. exact Ml.
  - intros de Ed. exact (load_desc_from W dtype_of g _ _ _ dv _ de Fd Ed).
Qed.

Lemma base_for_of (g : fgroup V) url ctx : gr_fname g = fname_of url -> base_for env url (gr_base g) ctx (Files.base_of env g ctx).
Proof.
  intros F. unfold base_for, Files.base_of. destruct (gr_base g) as [u|].
  - destruct ctx as [[|c s]|]; reflexivity.
  - rewrite F. unfold fname_of. destruct (is_url url) eqn:U; split; intros R; try reflexivity.
    + destruct R. apply is_url_iff. exact U.
    + apply is_url_iff in R. congruence.
Qed.
Lemma again_of ctx b : base_again env ctx b (regrouped env b ctx).
Proof.
  unfold base_again, regrouped. destruct ctx as [[|c s]|]; try reflexivity. cbn [str_eqb]. destruct b; try reflexivity.
  destruct (is_url (c :: s)) eqn:U; split; intros R; try reflexivity; [destruct R; apply is_url_iff; exact U|apply is_url_iff in R; congruence].
Qed.
(** separators are not empty *)
Lemma tables_separators csvw outer t (x : ftable V) : table_described W dtype_of csvw outer t x -> forall c, In c (t_cols x) -> st_separator (tc_st c) <> Some [].
Proof.
  intros [_ _ _ _ (s & ds & _ & _ & Len & D) _ _] c I. apply In_nth_error in I. destruct I as [i Hi].
  destruct (nth_error ds i) as [d|] eqn:Hd.
  - specialize (D i d c Hd Hi). destruct (cd_separator _ _ _ _ _ _ _ D) as (r & _ & X). intros E. rewrite E in X. destruct X as [_ X]. exact (X eq_refl).
  - apply nth_error_None in Hd. assert (i < length (t_cols x)) by (apply nth_error_Some; congruence). lia.
Qed.

(** ** Groups *)
Lemma group_of_checked url md o gs : wf_json (JObj md) -> fromvalue W (TableGroup_class W) (JObj md) = Ok o -> group_of W dtype_of sc expand lim env fs true url o = Ok gs ->
  exists xs, group_checked W dtype_of env url md xs /\ gs = map (gtable_of sc expand lim env fs) xs.
Proof.
  intros Wf H G. unfold group_of in G. destruct (nth 17 (o_vals o) (MJ JNull)) as [| | | | | | | | |ts] eqn:N17; try discriminate G.
  apply bind_inv in G as (ks & Mk & G). apply bind_inv in G as (g & Lg & G). apply Ok_inj in G.
  destruct (group_objects md o ts Wf H N17) as [(ds & T & Wd & Fo) Dg].
  assert (Gd : group_described W dtype_of true md g).
  { apply (group_loaded W dtype_of (us_schema _ Us) (us_dialect _ Us)); [exact Wf|]. unfold group_from_json. rewrite H. exact Lg. }
  set (g' := {| Files.gr_tables := Files.gr_tables g; Files.gr_dialect := Files.gr_dialect g; Files.gr_base := Files.gr_base g; Files.gr_ctx := Files.gr_ctx g; Files.gr_fname := fname_of url; Files.gr_doc := Files.gr_doc g |}) in *.
  set (mk := fun k : ktable => {| ck_table := k_table k; ck_pk := k_pk k; ck_fks := k_fks k; ck_dialect := Files.dialect_of g' (k_table k);
       ck_base := Files.base_of env g' (t_ctx (k_table k)); ck_base2 := Files.base_of env g' (t_ctx (k_table k)) |}).
  exists (map mk ks). split.
  2:{ subst gs. rewrite map_map. apply map_ext. intros [kt kp kf]. reflexivity. }
  exists ds, (Files.gr_dialect g), (Files.gr_base g). split; [exact T|]. split; [exact (gd_dialect _ _ _ _ _ Gd)|].
  split; [unfold own_base_is; rewrite (gd_base _ _ _ _ _ Gd); destruct (Files.gr_base g); reflexivity|].
  assert (Gb : Files.gr_base g' = Files.gr_base g /\ Files.gr_fname g' = fname_of url /\ Files.gr_dialect g' = Files.gr_dialect g) by (repeat split).
  apply mapM_Forall2 in Mk. subst mk. clearbody g'. clear - Us Wd Fo Mk Dg Gb. revert ks Mk. induction Fo as [|d to ds ts Ho Fo IH]; intros ks Mk; inversion Mk as [|? k ? ks' Hk Mk']; subst; [constructor|].
  inversion_clear Wd as [|? ? Wd1 Wd2]. cbn [map]. constructor; [|exact (IH Wd2 _ Mk')]. cbn [ck_table ck_pk ck_fks ck_dialect ck_base ck_base2].
  destruct (keyed_from true (Some (md, o)) d to k Wd1 Ho Hk) as [Td Kd].
  { intros gd go E de L. injection E as <- <-. exact (Dg de L). }
  destruct Gb as (G1 & G2 & G3). split; [split; assumption|]. split; [rewrite <- G1; apply base_for_of; exact G2|]. split; [reflexivity|].
  unfold Files.dialect_of. rewrite G3. reflexivity.
Qed.
Lemma table_of_checked nh url md o g : wf_json (JObj md) -> fromvalue W (Table_class W) (JObj md) = Ok o -> Cli.table_of dtype_of sc expand lim env fs nh url o = Ok g ->
  exists x, lone_checked W dtype_of env url nh md x /\ g = gtable_of sc expand lim env fs x.
Proof.
  intros Wf H G. unfold Cli.table_of in G. apply bind_inv in G as (k & Lk & G). apply bind_inv in G as (own & Eo & G). apply Ok_inj in G.
  destruct (keyed_from true None md o k Wf H Lk) as [Td Kd]; [intros gd go E; discriminate E|].
  set (d := match t_dialect (k_table k) with Some d => d | None => meta_dialect end) in *.
  set (b := lone_base (V := V) env own (fname_of url) (t_ctx (k_table k))) in *.
  exists {| ck_table := k_table k; ck_pk := k_pk k; ck_fks := k_fks k; ck_dialect := if nh then without_header d else d; ck_base := b; ck_base2 := regrouped env b (t_ctx (k_table k)) |}.
  split; [|subst g; destruct k; reflexivity]. exists own. cbn [ck_table ck_pk ck_fks ck_dialect ck_base ck_base2].
  split; [exact (table_own_base md o own Wf H Eo)|]. split; [split; assumption|].
  split; [exact (base_for_of {| Files.gr_tables := []; Files.gr_dialect := None; Files.gr_base := own; Files.gr_ctx := t_ctx (k_table k); Files.gr_fname := fname_of url; Files.gr_doc := Ok JNull |} url _ eq_refl)|].
  split; [apply again_of|]. exists d. split; [reflexivity|]. split; intros ->; reflexivity.
Qed.
End Tabs.
