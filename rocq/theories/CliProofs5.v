(** csvwvalidate, put together (C64). *)
From Verif Require Import PyStr Dsv Json Dec Dialects NatLang Datatype Meta MetaSpec MetaProofs DsvProofs4
  Column Schema Table TableSpec Zip Locate LocateSpec LocateProofs Files Descr DescrProofs DescrProofs3 DescrProofs4 DescrProofs5 Load LoadSpec LoadProofs LoadProofs4
  Warn WarnSpec QuietSpec Group GroupSpec GroupProofs4 FrictionlessProofs2 Props_Locate Props_Warn Cli CliSpec CliProofs1 CliProofs2 CliProofs3 CliProofs4.
Section Locate.
Variable w : web.
Lemma get_json_none s : get_json w s = Ok None -> exists t, document w s t /\ wb_json w t = None.
Proof.
  unfold get_json, document. destruct (is_url s) eqn:E.
  - apply is_url_iff in E. intros H; apply bind_inv in H as ([c t] & G & H). apply Ok_inj in H. exists t; eauto.
  - apply is_url_false in E. destruct (wb_file w s) as [t|]; [|discriminate]. intros H. apply Ok_inj in H. exists t. auto.
Qed.
Lemma open_used url o : csvw_open w url None = Ok o -> metadata_used w url (op_md o) /\ (op_no_header o = true <-> op_group o = false /\ no_header_announced w url).
Proof.
  intros H. pose proof (open_inv _ _ _ _ H) as (j & md & nh & J & M & -> & Nh & _). destruct j as [j|].
  - destruct M as [-> ->]. apply get_json_ok in J. destruct J as (t & D & J). split; [exact (mu_itself _ _ _ t D J)|]. rewrite Nh, !andb_false_r.
    split; [discriminate|]. intros (_ & _ & (t' & D' & J') & _). pose proof (get_json_conv _ _ _ _ D J) as X. pose proof (get_json_document _ _ _ D') as Y. rewrite J' in Y. congruence.
  - apply get_json_none in J. destruct J as (t & D & J). destruct (is_url url) eqn:U.
    + apply is_url_iff in U. destruct (c53_remote w url t o U D J H) as (L & ct & desc & Hd & A). split; [exact (mu_located _ _ _ t U D J L)|]. rewrite A. apply and_iff_compat_l. split.
      * intros X. split; [exact U|]. split; [eauto|]. exists ct, desc. auto.
      * intros (_ & _ & ct' & desc' & Hd' & X). rewrite Hd in Hd'. injection Hd' as <- <-. exact X.
    + apply is_url_false in U. destruct (c53_local w url t o U D J H) as (N0 & L). split.
      * destruct (wb_file w (url ++ lit "-metadata.json")) as [t'|] eqn:F; [exact (mu_beside _ _ _ t t' U D J F L)|exact (mu_none _ _ _ t U D J F L)].
      * rewrite N0. split; [discriminate|]. intros (_ & R & _). contradiction.
Qed.
Lemma open_wf url o : (forall t j, wb_json w t = Some j -> wf_json j) -> csvw_open w url None = Ok o -> wf_json (JObj (op_md o)).
Proof.
  intros Wj H. apply open_used in H. destruct H as [H _].
  assert (Fb : forall u, wf_json (JObj [(lit "@context", JStr (lit "http://www.w3.org/ns/csvw")); (lit "url", JStr u)])).
  { intros u. apply wf_obj. split; [repeat constructor; cbn; intuition discriminate|]. intros k x I. cbn [In] in I. destruct I as [I|[I|[]]]; injection I as <- <-; exact Logic.I. }
  destruct H as [t D J|t R D J L|t t' R D J F J'|t R D J F E]; [exact (Wj _ _ J)| |exact (Wj _ _ J')|].
  - inversion L as [ct desc md Hd G E|ct desc ls md Hd N0 Ls G E|ct desc ls Hd N0 Ls G E].
    + destruct G as (d & ty & u & t' & _ & _ & _ & _ & _ & J' & _). exact (Wj _ _ J').
    + destruct G as (a & l & b & _ & (u & t' & _ & _ & J' & _) & _). exact (Wj _ _ J').
    + apply Fb.
  - rewrite E. apply wf_obj. split; [repeat constructor; cbn; intuition discriminate|]. intros k x I. cbn [In] in I. destruct I as [I|[I|[I|[]]]]; injection I as <- <-; exact Logic.I.
Qed.
End Locate.

Section Main.
Context {B V : Type} (veq : V -> V -> bool) (W : world B) (dtype_of : mobj B -> dtype V) (sc : scalars V) (expand : pystr -> dict V -> res pystr).
Variables (lim : N) (w : web) (env : fenv) (fs : files) (stem : pystr -> pystr).
Hypothesis Us : usual W.
Hypothesis Wj : forall t j, wb_json w t = Some j -> wf_json j.
Hypothesis Eq : equivalence veq.
Hypothesis Tot : forall u d, exists s, expand u d = Ok s.

Lemma valid_iff ws xs : (forall x, In x xs -> forall c, In c (t_cols (ck_table x)) -> st_separator (tc_st c) <> Some []) ->
  (csvw_is_valid veq (ws, map (gtable_of sc expand lim env fs) xs) = Ok true <-> ws = [] /\ all_valid sc lim env fs veq xs (map (gtable_of sc expand lim env fs) xs)).
Proof.
  intros Seps. unfold csvw_is_valid. cbn [fst snd]. destruct ws as [|w0 ws]; [|split; [discriminate|intros [E _]; discriminate E]].
  rewrite (is_valid_iff veq Eq). split.
  - intros (_ & H1 & H2 & H3). split; [reflexivity|]. split.
    + intros x I. apply (quiet_gtable sc expand lim env fs Tot x (Seps x I)). apply (proj1 (H1 _ (in_map _ _ _ I))).
    + split; [|split; assumption]. intros g I. exact (proj2 (H1 g I)).
  - intros (_ & [H1 (H2 & H3 & H4)]). split; [reflexivity|]. split; [|split; assumption]. intros g I. split; [|exact (H2 g I)].
    apply in_map_iff in I. destruct I as (x & <- & I). apply (quiet_gtable sc expand lim env fs Tot x (Seps x I)). exact (H1 x I).
Qed.
Theorem new_checked url c : csvw_new W dtype_of sc expand lim w env fs stem url = Ok c ->
  exists md md' xs, metadata_used w url md /\ metadata_as_used env stem url md md' /\ tables_checked W dtype_of env w url md md' xs /\
    Forall2 (read_as sc expand lim env fs) xs (snd c) /\
    (csvw_is_valid veq c = Ok true <-> nothing_ignored w url /\ metadata_in_order W md md' /\ all_valid sc lim env fs veq xs (snd c)).
Proof.
  intros H. unfold csvw_new in H. apply bind_inv in H as (op & Op & H). apply bind_inv in H as (j & J & H).
  pose proof (open_used w url op Op) as [Mu Nh]. pose proof (open_wf w url op Wj Op) as Wf. pose proof (open_warns_iff w url op Op) as Ow.
  pose proof (open_inv _ _ _ _ Op) as (_ & _ & _ & _ & _ & _ & _ & _ & Gr & _).
  assert (X : exists md', j = JObj md' /\ wf_json (JObj md') /\ (forall b, member md' (lit "@base") = Some (JStr b) -> metadata_as_used env stem url (op_md op) md') /\ (member md' (lit "@base") = None -> metadata_as_used env stem url (op_md op) md')).
  { destruct (is_url url) eqn:U.
    - pose proof (from_url_wf env stem url _ _ Wf J) as Wf'. destruct (from_url_web env stem url _ _ Wf J) as (md' & -> & Mb & Wm). exists md'. split; [reflexivity|]. split; [exact Wf'|]. rewrite Mb. split; [|discriminate].
      intros b E. injection E as E. apply is_url_iff in U. split; [intros _; exact (Wm b E)|intros Nr; contradiction].
    - apply Ok_inj in J. subst j. exists (op_md op). split; [reflexivity|]. split; [exact Wf|]. apply is_url_false in U. split; intros; (split; [intros R; contradiction|reflexivity]). }
  destruct X as (md' & -> & Wf' & Mb & Mn). clear J.
  assert (Ma : forall o, own_base_is md' o -> metadata_as_used env stem url (op_md op) md').
  { intros [b|] E; [exact (Mb b E)|exact (Mn E)]. }
  assert (Ra : forall xs, Forall2 (read_as sc expand lim env fs) xs (map (gtable_of sc expand lim env fs) xs)).
  { induction xs; cbn [map]; constructor; [apply read_as_gtable|assumption]. }
  assert (Cl : forall l, map CLoad l = [] <-> l = []) by (intros []; cbn; split; congruence).
  destruct Gr as [[Gt (t & ts & T)]|[Gt T]]; rewrite Gt in H.
  - apply bind_inv in H as (o & Fo & H). apply bind_inv in H as (_ & _ & H). apply bind_inv in H as (gs & Go & H). apply Ok_inj in H. subst c.
    destruct (group_of_checked W dtype_of sc expand lim env fs Us url md' o gs Wf' Fo Go) as (xs & Gc & ->).
    exists (op_md op), md', xs. split; [exact Mu|].
    split; [destruct Gc as (? & ? & b & _ & _ & Ob & _); exact (Ma b Ob)|].
    split; [split; [intros _; exact Gc|unfold member; rewrite T; discriminate]|]. split; [apply Ra|]. cbn [snd].
    rewrite valid_iff.
    2:{ destruct Gc as (ts' & ? & b & _ & _ & _ & F). intros x0 I. clear -F I. revert I. induction F as [|t' x' ts' xs' [Tc _] F IH]; intros I; [destruct I|]. destruct I as [<-|I]; [|exact (IH I)]. exact (tables_separators W dtype_of _ _ _ _ (tc_described _ _ _ _ _ Tc)). }
    assert (E : open_warns w url ++ map CLoad (group_warns W (JObj md')) = [] <-> nothing_ignored w url /\ metadata_in_order W (op_md op) md').
    { rewrite <- Ow. unfold metadata_in_order. unfold member. rewrite T. rewrite <- (c63_group _ W md' o Us Wf' Fo). split.
      - intros X. apply app_eq_nil in X. destruct X as [X1 X2]. apply Cl in X2. split; [exact X1|]. split; [auto|discriminate].
      - intros (X1 & X2 & _). rewrite X1, (X2 ltac:(discriminate)). reflexivity. }
    rewrite E. tauto.
  - apply bind_inv in H as (o & Fo & H). apply bind_inv in H as (g & Go & H). apply Ok_inj in H. subst c.
    destruct (table_of_checked W dtype_of sc expand lim env fs Us _ url md' o g Wf' Fo Go) as (x & Lc & ->).
    exists (op_md op), md', [x]. split; [exact Mu|].
    split; [destruct Lc as (b & Ob & _); exact (Ma b Ob)|].
    split. { split; [unfold member; rewrite T; intros X; destruct (X eq_refl)|]. intros _. exists x, (op_no_header op). split; [reflexivity|]. split; [rewrite Nh, Gt; tauto|exact Lc]. }
    split; [exact (Ra [x])|]. cbn [snd]. change [gtable_of sc expand lim env fs x] with (map (gtable_of sc expand lim env fs) [x]). rewrite valid_iff.
    2:{ destruct Lc as (b & _ & Tc & _). intros x' [<-|[]]. exact (tables_separators W dtype_of _ _ _ _ (tc_described _ _ _ _ _ Tc)). }
    assert (E : open_warns w url ++ map CLoad (table_warns W (JObj md')) = [] <-> nothing_ignored w url /\ metadata_in_order W (op_md op) md').
    { rewrite <- Ow. unfold metadata_in_order. unfold member. rewrite T. rewrite <- (c63_table _ W md' o Us Wf' Fo). split.
      - intros X. apply app_eq_nil in X. destruct X as [X1 X2]. apply Cl in X2. split; [exact X1|]. split; [intros X; destruct (X eq_refl)|auto].
      - intros (X1 & _ & X2). rewrite X1, (X2 eq_refl). reflexivity. }
    rewrite E. tauto.
Qed.
End Main.
