(** Tables and groups from JSON. *)
From Verif Require Import PyStr Dsv Json Dec Dialects NatLang Datatype Meta MetaSpec MetaProofs MetaProofs2 MetaProofs3 DsvProofs4
  Column ColumnSpec ColumnProofs Schema Table TableSpec Files Descr DescrSpec DescrProofs DescrProofs3 DescrProofs4 DescrProofs5 Load LoadSpec LoadProofs LoadProofs2 LoadProofs3.
Local Open Scope nat_scope.
Section Tab.
Context {B V : Type} (W : world B) (dtype_of : mobj B -> dtype V).
Hypothesis schema_wf : forall u j, w_fetch_schema W u = Some j -> wf_json j.
Hypothesis dialect_wf : forall u a j, w_fetch_dialect W u a = Ok j -> wf_json j.

Lemma base_in_fold l : base_in l (fold_left ctx_base l JNull).
Proof.
  induction l as [|x l IH] using rev_ind; [apply bi_none; intros d j []|]. rewrite fold_left_app. cbn [fold_left].
  assert (K : (forall d j, x = JObj d -> member d (lit "@base") <> Some j) -> base_in (l ++ [x]) (fold_left ctx_base l JNull)).
  { intros N. revert IH. generalize (fold_left ctx_base l JNull). intros r IH. inversion IH as [l' H|before d after j M H]; subst.
    - apply bi_none. intros d j Hin. apply in_app_iff in Hin. destruct Hin as [Hin|[->|[]]]; [exact (H d j Hin)|]. apply N; reflexivity.
    - rewrite <- app_assoc. cbn [app]. apply bi_last; [exact M|]. intros d' j' Hin. apply in_app_iff in Hin. destruct Hin as [Hin|[->|[]]]; [exact (H d' j' Hin)|]. apply N; reflexivity. }
  destruct x as [| | | | | |d]; cbn [ctx_base]; try (apply K; intros d j E; discriminate E).
  destruct (dget str_eqb d (lit "@base")) as [b|] eqn:M.
  - apply (bi_last l d [] b); [exact M|]. intros d' j' [].
  - apply K. intros d' j E. injection E as <-. unfold member. rewrite M. discriminate.
Qed.
Lemma at_post_keeps at_ at2 : at_post W at_ = Ok at2 -> context_base at2 = context_base at_ /\
  forall k, k <> lit "id" -> k <> lit "context" -> dget str_eqb at2 k = dget str_eqb at_ k.
Proof.
  unfold at_post, dget_at. intros H.
  destruct (match dget str_eqb at_ (lit "id") with Some JNull => _ | _ => _ end) as [at1|] eqn:E1; [|discriminate H]. cbn [bind] in H.
  assert (A1 : forall k, k <> lit "id" -> dget str_eqb at1 k = dget str_eqb at_ k).
  { intros k Hk. destruct (dget str_eqb at_ (lit "id")) as [[]|]; try (apply Ok_inj in E1; subst at1; reflexivity).
    destruct (Descr.base_of W at_); [|discriminate E1]. cbn [bind] in E1. apply Ok_inj in E1. subst at1.
    rewrite (dget_dset str_eqb str_eqb_eq). destruct (str_eqb_spec k (lit "id")); [contradiction|reflexivity]. }
  assert (A2 : (forall k, k <> lit "context" -> dget str_eqb at2 k = dget str_eqb at1 k) /\ context_base at2 = context_base at1).
  { unfold context_base. destruct (dget str_eqb at1 (lit "context")) as [[| | | | |l|]|] eqn:G; try (apply Ok_inj in H; subst at2; rewrite G; split; reflexivity).
    destruct (mapM (check_context W) l) as [l'|] eqn:M; [|discriminate H]. cbn [bind] in H. apply Ok_inj in H. subst at2. split.
    - intros k Hk. rewrite (dget_dset str_eqb str_eqb_eq). destruct (str_eqb_spec k (lit "context")); [contradiction|reflexivity].
    - rewrite (dget_dset str_eqb str_eqb_eq), str_eqb_refl. destruct (check_contexts_again W l l' M) as [_ F]. rewrite F. reflexivity. }
  destruct A2 as [A2 A3]. split.
  - rewrite A3. unfold context_base. rewrite A1 by discriminate. reflexivity.
  - intros k K1 K2. rewrite A2, A1 by assumption. reflexivity.
Qed.
Lemma context_from t at_ o : NoDup (map fst t) -> at_from t at_ -> context_base at_ = Ok o -> context_says t o.
Proof.
  intros Nd A E. unfold context_base in E. rewrite (at_get t at_ (lit "context") Nd A) in E by discriminate.
  change (lit "@" ++ lit "context") with (lit "@context") in E. unfold context_says.
  destruct (member t (lit "@context")) as [[| | | | |l|]|]; try discriminate E; try (apply Ok_inj in E; symmetry; exact E).
  pose proof (base_in_fold l) as Bi. destruct (fold_left ctx_base l JNull); try discriminate E; apply Ok_inj in E; subst o; exact Bi.
Qed.
Lemma dialect_field_from t at_ v v' o : wf_json (JObj t) -> at_from t at_ -> attr_from t (dialect_field W) v ->
  match v with MJ (JStr s) => j <- w_fetch_dialect W s at_ ;; a <- new_dialect W j ;; Ok (MDialect a) | _ => Ok v end = Ok v' ->
  load_dialect v' = Ok o -> dialect_described W t o.
Proof.
  intros Wf At F E L. unfold attr_from in F. cbn [dialect_field fd_conv fd_name fd_default] in F.
  assert (D : forall j, wf_json j -> (a <- new_dialect W j ;; Ok (MDialect a)) = Ok v' -> exists x, o = Some x /\ dialect_says (w_codec W) (dialect_object j) x).
  { intros j Wj X. destruct (new_dialect W j) as [a|] eqn:N; [|discriminate X]. cbn [bind] in X. apply Ok_inj in X. subst v'. cbn [load_dialect] in L.
    destruct (to_dialect a) as [x|] eqn:T; [|discriminate L]. apply Ok_inj in L. exists x. split; [symmetry; exact L|]. exact (dialect_from W j a x Wj N T). }
  assert (F' : match getdef (member t (lit "dialect")) JNull with JNull | JStr _ => Ok (MJ (getdef (member t (lit "dialect")) JNull)) | _ => a <- new_dialect W (getdef (member t (lit "dialect")) JNull) ;; Ok (MDialect a) end = Ok v) by exact F. clear F.
  destruct (member t (lit "dialect")) as [j|] eqn:M; cbn [getdef] in F'.
  2:{ apply Ok_inj in F'. subst v. apply Ok_inj in E. subst v'. apply Ok_inj in L. subst o. apply dd_none. left; exact M. }
  assert (Wj : wf_json j) by exact (member_wf t _ j Wf M).
  assert (X : forall j', (a <- new_dialect W j' ;; Ok (MDialect a)) = Ok v -> (a <- new_dialect W j' ;; Ok (MDialect a)) = Ok v').
  { intros j' Y. destruct (new_dialect W j') as [a|]; [|discriminate Y]. cbn [bind] in *. apply Ok_inj in Y. subst v. exact E. }
  destruct j as [|b|z|m|s|l|kvs].
  - apply Ok_inj in F'. subst v. apply Ok_inj in E. subst v'. apply Ok_inj in L. subst o. apply dd_none. right; exact M.
  - destruct (D _ Wj (X _ F')) as (x & -> & S). eapply dd_other; [exact M| | | |exact S]; discriminate.
  - destruct (D _ Wj (X _ F')) as (x & -> & S). eapply dd_other; [exact M| | | |exact S]; discriminate.
  - destruct (D _ Wj (X _ F')) as (x & -> & S). eapply dd_other; [exact M| | | |exact S]; discriminate.
  - apply Ok_inj in F'. subst v. destruct (w_fetch_dialect W s at_) as [j|] eqn:Fe; [|discriminate E]. cbn [bind] in E.
    destruct (D j (dialect_wf _ _ _ Fe) E) as (x & -> & S). eapply (dd_link W t s at_ j (dialect_object j)); [exact M|exact Fe|exact (proj2 At)| |exact S].
    destruct j; try (right; split; [discriminate|reflexivity]). left; reflexivity.
  - destruct (D _ Wj (X _ F')) as (x & -> & S). eapply dd_other; [exact M| | | |exact S]; discriminate.
  - destruct (D _ Wj (X _ F')) as (x & -> & S). eapply dd_object; [exact M|exact S].
Qed.

Lemma schema_value_from t v csvw sch : wf_json (JObj t) -> schema_fromvalue W (getdef (member t (lit "tableSchema")) JNull) = Ok v ->
  match v with MObj s => load_schema dtype_of csvw s | _ => Err OtherError end = Ok sch ->
  exists s o, schema_object W (member t (lit "tableSchema")) s /\ wf_json (JObj s) /\ fromvalue W (Schema_class W) (JObj s) = Ok o /\ load_schema dtype_of csvw o = Ok sch.
Proof.
  intros Wf E L. assert (We : wf_json (JObj [])) by (apply wf_obj; split; [constructor|intros k x []]).
  assert (D : forall w, (o <- fromvalue W (Schema_class W) (match w with JObj _ => w | _ => JObj [] end) ;; Ok (MObj o)) = Ok v ->
    exists o, fromvalue W (Schema_class W) (JObj (dialect_object w)) = Ok o /\ load_schema dtype_of csvw o = Ok sch).
  { intros w X. assert (Q : match w with JObj _ => w | _ => JObj [] end = JObj (dialect_object w)) by (destruct w; reflexivity). rewrite Q in X.
    destruct (fromvalue W (Schema_class W) _) as [o|]; [|discriminate X]. cbn [bind] in X. apply Ok_inj in X. subst v. eauto. }
  unfold schema_fromvalue in E. destruct (member t (lit "tableSchema")) as [j|] eqn:M; cbn [getdef] in E.
  2:{ destruct (D JNull E) as (o & H1 & H2). exists [], o. split; [apply so_other; discriminate|exact (conj We (conj H1 H2))]. }
  pose proof (member_wf t _ j Wf M) as Wj.
  destruct j as [|b|z|m|s|l|kvs]; try (match type of M with _ = Some ?jj => destruct (D jj E) as (o & H1 & H2) end; exists [], o; split; [apply so_other; discriminate|exact (conj We (conj H1 H2))]).
  - destruct (w_fetch_schema W s) as [w|] eqn:Fe; [|apply Ok_inj in E; subst v; discriminate L]. destruct (D w E) as (o & H1 & H2).
    exists (dialect_object w), o. split; [|split; [|auto]].
    + eapply so_link; [exact Fe|]. destruct w; try (right; split; [discriminate|reflexivity]). left; reflexivity.
    + pose proof (schema_wf _ _ Fe) as Ww. destruct w; try exact We. exact Ww.
  - destruct (D (JObj kvs) E) as (o & H1 & H2). exists kvs, o. split; [apply so_object|]. auto.
Qed.

Lemma tcols_ordered (sch : schema V) outer cols : tcols_of sch outer = Ok cols -> ordered (s_columns sch) ->
  regular_first cols /\ NoDup (flat_map (fun c => if tc_virtual c then [] else match c_name (tc_col c) with None | Some [] => [] | Some n => [n] end) cols).
Proof.
  unfold tcols_of. intros H. apply mapM_Forall2 in H. revert H. generalize (s_columns sch) (s_desc sch :: outer). intros cs de H.
  assert (E : cs = map (@tc_col V) cols).
  { clear -H. induction H as [|c tc cs cols H F IH]; [reflexivity|]. cbn [map]. f_equal; [|exact IH]. unfold tcol_of in H. destruct (header c); [|discriminate H]. cbn [bind] in H. apply Ok_inj in H. subst tc. reflexivity. }
  subst cs. intros [(n & A & C) Nd]. split.
  - exists n. split; intros c I; [apply A; rewrite firstn_map|apply C; rewrite skipn_map]; apply in_map; exact I.
  - unfold given_names in Nd. rewrite flat_map_concat_map, map_map, <- flat_map_concat_map in Nd. exact Nd.
Qed.

Lemma table_from csvw (g : option (object * mobj B)) t o x : wf_json (JObj t) -> fromvalue W (Table_class W) (JObj t) = Ok o ->
  load_table dtype_of csvw (option_map snd g) o = Ok x ->
  (forall gd go, g = Some (gd, go) -> forall de, load_desc dtype_of go = Ok de -> desc_from W dtype_of gd de) ->
  table_described W dtype_of csvw (match g with Some (gd, _) => [gd] | None => [] end) t x.
Proof.
  intros Wf H L Hg. destruct (fromvalue_members W _ t o Wf (table_names W) H) as (common & at_ & vals & Fv & E & At).
  pose proof Wf as Nd. apply wf_obj in Nd. destruct Nd as [Nd _].
  cbn [cl_fields Table_class] in Fv. unfold tablelike_fields in Fv. rewrite <- app_assoc in Fv. apply F2_app_inv in Fv. destruct Fv as (dv & cv & -> & Fd & Fc).
  assert (Ld : length dv = 11) by (symmetry; exact (Forall2_length _ _ _ Fd)). cbn [app] in Fc.
  inversion Fc as [|? mdl ? ? Hdl Fc1]; subst. inversion Fc1 as [|? mno ? ? _ Fc2]; subst. inversion Fc2 as [|? mtd ? ? _ Fc3]; subst.
  inversion Fc3 as [|? msch ? ? Hsch Fc4]; subst. inversion Fc4 as [|? mtr ? ? _ Fc5]; subst. inversion Fc5 as [|? murl ? ? Hurl Fc6]; subst.
  inversion Fc6 as [|? msup ? ? _ Fc7]; subst. inversion Fc7; subst. clear Fc Fc1 Fc2 Fc3 Fc4 Fc5 Fc6 Fc7.
  cbn [cl_post Table_class] in E. rewrite tablelike_post_eq in E by exact Ld.
  destruct (match mdl with MJ (JStr s) => _ | _ => _ end) as [dl'|] eqn:Edl; [|discriminate E]. cbn [bind] in E.
  destruct (at_post W at_) as [at2|] eqn:Ap; [|discriminate E]. cbn [bind o_vals] in E.
  assert (A : forall k y, nth (11 + k) (dv ++ y) (MJ JNull) = nth k y (MJ JNull)).
  { intros k y. rewrite app_nth2, Ld by lia. f_equal. lia. }
  rewrite (A 5) in E. cbn [nth] in E. destruct murl as [| | |u| | | | | |]; try discriminate E. apply Ok_inj in E. subst o.
  destruct (at_post_keeps at_ at2 Ap) as [Cb _].
  unfold load_table, table_schema in L. cbn [o_vals o_at] in L. rewrite (A 3), (A 0), (A 5) in L. cbn [nth] in L.
  destruct (match msch with MObj s => load_schema dtype_of csvw s | _ => Err OtherError end) as [sch|] eqn:Ls; [|discriminate L]. cbn [bind] in L.
  destruct (load_desc dtype_of (MO None common at2 _)) as [td|] eqn:Ed; [|discriminate L]. cbn [bind] in L.
  destruct (match option_map snd g with Some g => _ | None => Ok [] end) as [gd|] eqn:Eg; [|discriminate L]. cbn [bind] in L.
  destruct (tcols_of sch (td :: gd)) as [cols|] eqn:Ec; [|discriminate L]. cbn [bind] in L.
  destruct (load_dialect dl') as [dlo|] eqn:El; [|discriminate L]. cbn [bind] in L.
  destruct (context_base at2) as [ctx|] eqn:Ex; [|discriminate L]. cbn [bind] in L. apply Ok_inj in L. subst x.
  assert (Dt : desc_from W dtype_of t td) by exact (load_desc_from W dtype_of t _ _ _ dv _ td Fd Ed).
  split; cbn [t_url t_dialect t_lang t_ctx t_cols].
  - assert (Hu : match getdef (member t (lit "url")) JNull with JNull => Ok (MJ JNull) | JStr s => Ok (MLink s) | _ => Err ValueError end = Ok (MLink u)) by exact Hurl.
    destruct (member t (lit "url")) as [[]|]; try discriminate Hu. cbn [getdef] in Hu. apply Ok_inj in Hu. congruence.
  - exact (dialect_field_from t at_ mdl dl' dlo Wf At Hdl Edl El).
  - exact (df_lang _ _ _ _ Dt).
  - apply (context_from t at_ ctx Nd At). congruence.
  - assert (Hs : schema_fromvalue W (getdef (member t (lit "tableSchema")) JNull) = Ok msch) by exact Hsch.
    destruct (schema_value_from t msch csvw sch Wf Hs Ls) as (s & so & So & Ws & Hso & Lso).
    destruct (schema_from W dtype_of csvw s so sch Ws Hso Lso) as (Ds & _ & ds & Co & Len & Cols).
    exists s, ds. split; [exact So|]. split; [exact Co|]. unfold tcols_of in Ec. apply mapM_Forall2 in Ec.
    pose proof (Forall2_length _ _ _ Ec) as Lc. split; [congruence|]. intros i col c Hcol Hc.
    assert (Fg : Forall2 (desc_from W dtype_of) (match g with Some (gd, _) => [gd] | None => [] end) gd).
    { destruct g as [[go gm]|]; cbn [option_map snd] in Eg.
      - destruct (load_desc dtype_of gm) as [de|] eqn:Eo; [|discriminate Eg]. cbn [bind] in Eg. apply Ok_inj in Eg. subst gd.
        constructor; [exact (Hg go gm eq_refl de Eo)|constructor].
      - apply Ok_inj in Eg. subst gd. constructor. }
    destruct (nth_error (s_columns sch) i) as [cc|] eqn:Hcc.
    2:{ apply nth_error_None in Hcc. assert (i < length ds) by (apply nth_error_Some; congruence). lia. }
    destruct (Cols i col cc Hcol Hcc) as (co & Wc & Hco & Lco).
    destruct (nth_error_F2 _ _ _ i cc Ec Hcc) as (c' & Hc' & Tc). rewrite Hc in Hc'. injection Hc' as <-.
    eapply column_from; [exact Wc|exact Hco|exact Lco| |exact Tc]. constructor; [exact Ds|]. constructor; [exact Dt|exact Fg].
  - apply (tcols_ordered sch (td :: gd) cols Ec). assert (Hs : schema_fromvalue W (getdef (member t (lit "tableSchema")) JNull) = Ok msch) by exact Hsch.
    destruct (schema_value_from t msch csvw sch Wf Hs Ls) as (s & so & So & Ws & Hso & Lso). apply (schema_from W dtype_of csvw s so sch Ws Hso Lso).
  - apply (tcols_ordered sch (td :: gd) cols Ec). assert (Hs : schema_fromvalue W (getdef (member t (lit "tableSchema")) JNull) = Ok msch) by exact Hsch.
    destruct (schema_value_from t msch csvw sch Wf Hs Ls) as (s & so & So & Ws & Hso & Lso). apply (schema_from W dtype_of csvw s so sch Ws Hso Lso).
Qed.
Theorem table_loaded csvw t x : wf_json (JObj t) -> table_from_json W dtype_of csvw (JObj t) = Ok x -> table_described W dtype_of csvw [] t x.
Proof.
  intros Wf H. unfold table_from_json in H. destruct (fromvalue W (Table_class W) (JObj t)) as [o|] eqn:E; [|discriminate H]. cbn [bind] in H.
  apply (table_from csvw None t o x Wf E H). intros gd go G; discriminate G.
Qed.
Lemma objects_items l : Forall wf_json l -> objects_in l (flat_map (fun x => match x with JObj d => [d] | _ => [] end) l) /\
  Forall (fun d => wf_json (JObj d)) (flat_map (fun x => match x with JObj d => [d] | _ => [] end) l).
Proof.
  induction l as [|x l IH]; intros F; [split; constructor|]. apply Forall_cons_iff in F. destruct F as [Fx F]. destruct (IH F) as [I1 I2].
  destruct x; cbn [flat_map app]; try (split; [apply oi_other; [discriminate|exact I1]|exact I2]). split; [apply oi_object; exact I1|constructor; assumption].
Qed.
Theorem group_loaded csvw g x : wf_json (JObj g) -> group_from_json W dtype_of csvw (JObj g) = Ok x -> group_described W dtype_of csvw g x.
Proof.
  intros Wf H. unfold group_from_json in H. destruct (fromvalue W (TableGroup_class W) (JObj g)) as [o|] eqn:E0; [|discriminate H]. cbn [bind] in H.
  destruct (fromvalue_members W _ g o Wf (group_names W) E0) as (common & at_ & vals & Fv & E & At).
  pose proof Wf as Nd. apply wf_obj in Nd. destruct Nd as [Nd _].
  cbn [cl_fields TableGroup_class] in Fv. unfold tablelike_fields in Fv. rewrite <- app_assoc in Fv. apply F2_app_inv in Fv. destruct Fv as (dv & cv & -> & Fd & Fc).
  assert (Ld : length dv = 11) by (symmetry; exact (Forall2_length _ _ _ Fd)). cbn [app] in Fc.
  inversion Fc as [|? mdl ? ? Hdl Fc1]; subst. inversion Fc1 as [|? mno ? ? _ Fc2]; subst. inversion Fc2 as [|? mtd ? ? _ Fc3]; subst.
  inversion Fc3 as [|? msch ? ? _ Fc4]; subst. inversion Fc4 as [|? mtr ? ? _ Fc5]; subst. inversion Fc5 as [|? murl ? ? _ Fc6]; subst.
  inversion Fc6 as [|? mtab ? ? Htab Fc7]; subst. inversion Fc7; subst. clear Fc Fc1 Fc2 Fc3 Fc4 Fc5 Fc6 Fc7.
  cbn [cl_post TableGroup_class] in E. rewrite tablelike_post_eq in E by exact Ld.
  destruct (match mdl with MJ (JStr s) => _ | _ => _ end) as [dl'|] eqn:Edl; [|discriminate E]. cbn [bind] in E.
  destruct (at_post W at_) as [at2|] eqn:Ap; [|discriminate E]. cbn [bind o_vals] in E. apply Ok_inj in E. subst o.
  assert (A : forall k y, nth (11 + k) (dv ++ y) (MJ JNull) = nth k y (MJ JNull)).
  { intros k y. rewrite app_nth2, Ld by lia. f_equal. lia. }
  destruct (at_post_keeps at_ at2 Ap) as [Cb Kb].
  unfold load_group in H. cbn [o_vals o_at] in H. rewrite (A 6), (A 0) in H. cbn [nth] in H. destruct mtab as [| | | | | | | | |ts]; try discriminate H.
  destruct (mapM _ ts) as [tables|] eqn:Mt; [|discriminate H]. cbn [bind] in H.
  destruct (load_dialect dl') as [dlo|] eqn:El; [|discriminate H]. cbn [bind] in H.
  destruct (at_str at2 (lit "base")) as [b|] eqn:Eb; [|discriminate H]. cbn [bind] in H.
  destruct (context_base at2) as [ctx|] eqn:Ex; [|discriminate H]. cbn [bind] in H. apply Ok_inj in H. subst x.
  split; cbn [gr_tables gr_dialect gr_base gr_ctx].
  - apply mapM_Forall2 in Mt.
    assert (X : exists ds, tables_of g ds /\ Forall (fun d => wf_json (JObj d)) ds /\ Forall2 (fun d o => fromvalue W (Table_class W) (JObj d) = Ok o) ds ts).
    { assert (Ht : match getdef (member g (lit "tables")) (JList []) with
                   | JList l => ts <- mapM (fun d => fromvalue W (Table_class W) (JObj d)) (flat_map (fun x => match x with JObj d => [d] | _ => [] end) l) ;; Ok (MObjs ts)
                   | JStr _ | JObj _ => Ok (MObjs []) | _ => Err TypeError end = Ok (MObjs ts)) by exact Htab.
      unfold tables_of. destruct (member g (lit "tables")) as [j|] eqn:M; cbn [getdef] in Ht.
      2:{ cbn in Ht. apply Ok_inj in Ht. injection Ht as <-. exists []. split; [reflexivity|split; constructor]. }
      destruct j as [| | | | |l|]; try discriminate Ht; try (apply Ok_inj in Ht; injection Ht as <-; exists []; split; [reflexivity|split; constructor]).
      destruct (mapM _ _) as [ts'|] eqn:Ml in Ht; [|discriminate Ht]. cbn [bind] in Ht. apply Ok_inj in Ht. injection Ht as ->.
      pose proof (member_wf g _ _ Wf M) as Wl. assert (Fl : Forall wf_json l) by (apply Forall_forall; apply (proj1 (wf_list l) Wl)).
      destruct (objects_items l Fl) as [O1 O2]. eexists. split; [exact O1|]. split; [exact O2|]. apply mapM_Forall2 in Ml. exact Ml. }
    destruct X as (ds & T & Wd & Fo). exists ds. split; [exact T|].
    assert (Dg : forall de, load_desc dtype_of (MO None common at2 (dv ++ [dl'; mno; mtd; msch; mtr; murl; MObjs ts])) = Ok de -> desc_from W dtype_of g de).
    { intros de Ed. exact (load_desc_from W dtype_of g _ _ _ dv _ de Fd Ed). }
    revert Mt Dg. generalize (MO None common at2 (dv ++ [dl'; mno; mtd; msch; mtr; murl; MObjs ts])). intros go Mt Dg.
    clear - schema_wf dialect_wf Wd Fo Mt Dg. revert tables Mt. induction Fo as [|d o ds ts Ho Fo IH]; intros tables Mt.
    + inversion Mt; subst. constructor.
    + inversion Mt as [|? x ? xs Hx Mx]; subst. apply Forall_cons_iff in Wd. destruct Wd as [W1 W2]. constructor; [|exact (IH W2 xs Mx)].
      apply (table_from csvw (Some (g, go)) d o x W1 Ho Hx). intros gd go' Eg de Ed. injection Eg as <- <-. exact (Dg de Ed).
  - exact (dialect_field_from g at_ mdl dl' dlo Wf At Hdl Edl El).
  - unfold at_str in Eb. rewrite Kb in Eb by discriminate. rewrite (at_get g at_ (lit "base") Nd At) in Eb by discriminate.
    change (lit "@" ++ lit "base") with (lit "@base") in Eb. destruct (member g (lit "@base")) as [[]|]; try discriminate Eb; apply Ok_inj in Eb; subst b; reflexivity.
  - apply (context_from g at_ ctx Nd At). congruence.
Qed.
End Tab.
