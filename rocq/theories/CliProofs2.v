(** Locating metadata: what is ignored with a warning (C64). *)
From Verif Require Import PyStr Json Dsv DsvProofs4 Meta MetaSpec MetaProofs DbProofs FrictionlessProofs2 DescrProofs Dialects NatLang Column Schema Table TableSpec Zip Locate LocateSpec LocateProofs Props_Locate Files Descr Load LoadSpec Warn WarnSpec
  QuietSpec Group GroupSpec Cli CliSpec.

Section Places.
Variable w : web.
Lemma linked_warns_iff url desc : linked w url desc = Ok None -> (linked_warns w url desc = [] <-> ~ link_ignored w url desc).
Proof.
  intros H. unfold linked_warns. rewrite H. unfold linked in H. destruct desc as [[|p ps]|].
  - split; [|reflexivity]. intros _ (d & ty & u & t & md & Q & T & _). injection Q as <-. discriminate.
  - destruct (dget str_eqb (p :: ps) (lit "type")) as [ty|] eqn:T; [|discriminate H]. destruct (str_mem ty json_types) eqn:M.
    + destruct (dget str_eqb (p :: ps) (lit "url")) as [u|] eqn:U; [|discriminate]. apply bind_inv in H as (j & J & H). destruct j as [md|]; [|discriminate].
      apply bind_inv in H as (b & Bd & H). apply Ok_inj in H. destruct b; [discriminate|]. pose proof (describes_ok _ _ _ Bd) as D. split; [discriminate|]. intros N0. exfalso. apply N0.
      apply get_json_ok in J as (t & G & J). exists (p :: ps), ty, u, t, md. split; [reflexivity|]. split; [exact T|]. split; [apply str_mem_In; exact M|].
      split; [exact U|]. split; [exact G|]. split; [exact J|]. intros R. apply D in R. discriminate.
    + split; [|reflexivity]. intros _ (d & ty' & u & t & md & Q & T' & I & _). injection Q as <-. rewrite T in T'. injection T' as <-. apply str_mem_false in M. contradiction.
  - split; [|reflexivity]. intros _ (d & ty & u & t & md & Q & _). discriminate.
Qed.
Lemma location_warns_iff url line : at_location w url line = Ok None -> (location_warns w url line = [] <-> ~ location_ignored w url line).
Proof.
  unfold at_location, location_warns. intros H. apply bind_inv in H as (u & U & H). apply bind_inv in H as ([c t] & G & H). rewrite U. cbn [bind] in *. rewrite G. cbn [fst snd] in *.
  destruct (c =? 200)%Z eqn:C.
  - apply Z.eqb_eq in C; subst c. destruct (wb_json w t) as [md|] eqn:J.
    + apply bind_inv in H as (b & Bd & H). apply Ok_inj in H. destruct b; [discriminate|]. pose proof (describes_ok _ _ _ Bd) as D. split; [discriminate|]. intros N0. exfalso. apply N0.
      exists u, t, md. repeat split; auto. intros R. apply D in R. discriminate.
    + split; [|reflexivity]. intros _ (u' & t' & md & U' & G' & J' & _). rewrite U in U'; apply Ok_inj in U'; subst u'. rewrite G in G'. injection G' as <-. congruence.
  - apply Z.eqb_neq in C. split; [|reflexivity]. intros _ (u' & t' & md & U' & G' & J' & _). rewrite U in U'; apply Ok_inj in U'; subst u'. rewrite G in G'. injection G' as -> _. congruence.
Qed.
(** the location that is used is not ignored *)
Lemma gives_not_ignored url l md : location_gives w url l md -> ~ location_ignored w url l.
Proof.
  intros (u & t & U & G & J & R) (u' & t' & md' & U' & G' & J' & R'). rewrite U in U'; apply Ok_inj in U'; subst u'. rewrite G in G'. injection G' as <-. rewrite J in J'. injection J' as <-. contradiction.
Qed.
Definition places_quiet url ls := exists a rest, ls = a ++ rest /\ Forall (fun l => ~ location_ignored w url l) a /\ (rest = [] \/ exists l rest' md, rest = l :: rest' /\ location_gives w url l md).
Lemma locations_warns_iff url ls : forall m, at_locations w url ls = Ok m -> (locations_warns w url ls = [] <-> places_quiet url ls).
Proof.
  induction ls as [|l ls IH]; intros m H; cbn [at_locations locations_warns] in *.
  - split; [|reflexivity]. intros _. exists [], []. auto.
  - apply bind_inv in H as (m' & L & H). rewrite L. pose proof (at_location_ok _ _ _ _ L) as A. destruct m' as [md|].
    + split; [|reflexivity]. intros _. exists [], (l :: ls). split; [reflexivity|]. split; [constructor|]. right. eauto.
    + specialize (IH _ H). split.
      * intros E. apply app_eq_nil in E. destruct E as [E1 E2]. apply location_warns_iff in E1; [|exact L]. apply IH in E2. destruct E2 as (a & rest & -> & F & R).
        exists (l :: a), rest. split; [reflexivity|]. split; [constructor; auto|exact R].
      * intros (a & rest & E & F & R). destruct a as [|l' a].
        -- cbn in E. subst rest. destruct R as [R|(l' & rest & md & R & G)]; [discriminate|]. injection R as <- <-. destruct (A _ G).
        -- injection E as <- ->. inversion_clear F as [|? ? F1 F2]. rewrite (proj2 (location_warns_iff _ _ L) F1). cbn [app]. apply IH. exists a, rest. auto.
Qed.
Theorem open_warns_iff url o : csvw_open w url None = Ok o -> (open_warns w url = [] <-> nothing_ignored w url).
Proof.
  intros H. apply open_inv in H. destruct H as (j & md & nh & J & M & _). unfold open_warns. rewrite J. destruct j as [j|].
  - split; [|reflexivity]. intros _. apply get_json_ok in J. destruct J as (t & D & J). eapply ni_metadata; eauto.
  - unfold locate_warns. destruct (is_url url) eqn:U.
    2:{ split; [|reflexivity]. intros _. apply ni_local. apply is_url_false. exact U. }
    unfold locate_metadata in M. rewrite U in M. apply bind_inv in M as ([ct desc] & Hd & M). rewrite Hd. cbn [fst snd] in *. apply bind_inv in M as (m & L & M). rewrite L.
    pose proof (linked_ok _ _ _ _ L) as LO. destruct m as [m|].
    + split; [|reflexivity]. intros _. eapply ni_link; eauto.
    + apply bind_inv in M as (ls & Ls & M). rewrite Ls. pose proof (locations_ok _ _ _ Ls) as LsO. apply bind_inv in M as (m & Al & M).
      split.
      * intros E. apply app_eq_nil in E. destruct E as [E1 E2]. apply linked_warns_iff in E1; [|exact L]. apply (locations_warns_iff _ _ _ Al) in E2. destruct E2 as (a & rest & E & F & R).
        eapply ni_place; eauto.
      * intros Q. destruct Q as [t md' D Jt|R|ct' desc' md' Hd' G|ct' desc' ls' a rest Hd' NI Ls' E F R].
        -- rewrite (get_json_conv _ _ _ _ D Jt) in J. discriminate.
        -- apply is_url_false in R. congruence.
        -- rewrite Hd in Hd'. injection Hd' as <- <-. destruct (LO _ G).
        -- rewrite Hd in Hd'. injection Hd' as <- <-. rewrite (locations_unique _ _ _ _ Ls' LsO) in E. rewrite (proj2 (linked_warns_iff _ _ L) NI). cbn [app].
           apply (locations_warns_iff _ _ _ Al). exists a, rest. auto.
Qed.
End Places.

(** Metadata from the web *)
Section Web.
Variables (env : fenv) (stem : pystr -> pystr).
Lemma wf_dset kvs k v : wf_json (JObj kvs) -> wf_json v -> wf_json (JObj (dset str_eqb kvs k v)).
Proof.
  intros Wf Wv. pose proof (proj1 (wf_obj _) Wf) as [Nd Wk]. apply wf_obj. split; [apply dset_keys_nodup; exact Nd|].
  intros k' x I. apply (dset_In _ _ _ _ Nd) in I. destruct I as [I|[I _]]; [injection I as -> ->; exact Wv|exact (Wk _ _ I)].
Qed.
Lemma resolve_schema_from b j j' : wf_json j -> resolve_schema env (JStr b) j = Ok j' -> wf_json j' /\ schema_resolved (fe_join env) b j j'.
Proof.
  intros Wf H. assert (S : resolve_schema env (JStr b) j = Ok j -> (forall t s, j = JObj t -> member t (lit "tableSchema") <> Some (JStr s)) -> wf_json j' /\ schema_resolved (fe_join env) b j j').
  { intros E X. rewrite E in H. apply Ok_inj in H. subst j'. split; [exact Wf|]. apply sr_same. exact X. }
  unfold resolve_schema in H, S. destruct j as [| | | | | |t]; try (apply (S eq_refl); discriminate).
  destruct (dget str_eqb t (lit "tableSchema")) as [v|] eqn:M.
  2:{ apply (S eq_refl). intros t' s E. injection E as <-. unfold member. rewrite M. discriminate. }
  destruct v as [| | | |s| |]; try (apply (S eq_refl); intros t' s E; injection E as <-; unfold member; rewrite M; discriminate).
  apply Ok_inj in H. subst j'. split; [apply wf_dset; [exact Wf|exact I]|]. eapply sr_link; [exact M| |].
  - unfold member. rewrite (dget_dset str_eqb str_eqb_eq), str_eqb_refl. reflexivity.
  - intros k Hk. unfold member. rewrite (dget_dset str_eqb str_eqb_eq). destruct (str_eqb_spec k (lit "tableSchema")); [contradiction|reflexivity].
Qed.
Lemma resolve_schema_wf b j j' : wf_json j -> resolve_schema env b j = Ok j' -> wf_json j'.
Proof.
  intros Wf H. unfold resolve_schema in H. destruct j as [| | | | | |t]; try (apply Ok_inj in H; subst j'; exact Wf).
  destruct (dget str_eqb t (lit "tableSchema")) as [[]|]; try (apply Ok_inj in H; subst j'; exact Wf).
  apply bind_inv in H as (u & _ & H). apply Ok_inj in H. subst j'. apply wf_dset; [exact Wf|exact I].
Qed.
Lemma from_url_wf url kvs j : wf_json (JObj kvs) -> from_url_data env stem url kvs = Ok j -> wf_json j.
Proof.
  intros Wf H. unfold from_url_data in H.
  assert (Wb : wf_json (JObj (with_base stem url kvs))).
  { unfold with_base. destruct (dget str_eqb kvs (lit "@base")) eqn:E; [exact Wf|]. rewrite <- (dset_new str_eqb str_eqb_eq kvs (lit "@base") (JStr (stem url)) (dget_None_In _ _ E)). apply wf_dset; [exact Wf|exact I]. }
  destruct (dget str_eqb kvs (lit "tables")) as [tv|] eqn:T; [|exact (resolve_schema_wf _ _ _ Wb H)].
  destruct tv as [| | | | |l|]; try discriminate. apply bind_inv in H as (l' & M & H). apply Ok_inj in H. subst j. apply wf_dset; [exact Wb|]. apply wf_list.
  assert (Wl : forall x, In x l -> wf_json x). { apply wf_list. apply dget_Some_In in T. apply (proj2 (proj1 (wf_obj _) Wf) _ _ T). }
  apply mapM_Forall2 in M. clear -M Wl. induction M as [|x y l l' H M IH]; intros z [].
  - subst z. apply (resolve_schema_wf _ _ _ (Wl x (or_introl eq_refl)) H).
  - apply IH; [intros u Hu; apply Wl; right; exact Hu|assumption].
Qed.
Lemma with_base_spec url kvs : wf_json (JObj kvs) -> wf_json (JObj (with_base stem url kvs)) /\ member (with_base stem url kvs) (lit "@base") = Some (base_value stem url kvs) /\
  forall k, k <> lit "@base" -> member (with_base stem url kvs) k = member kvs k.
Proof.
  intros Wf. unfold with_base, base_value, member. destruct (dget str_eqb kvs (lit "@base")) as [b|] eqn:E.
  - cbn [getdef]. auto.
  - cbn [getdef]. assert (NI : ~ In (lit "@base") (map fst kvs)) by (apply dget_None_In; exact E).
    rewrite <- (dset_new str_eqb str_eqb_eq kvs (lit "@base") (JStr (stem url)) NI). split; [apply wf_dset; [exact Wf|exact I]|]. split.
    + rewrite (dget_dset str_eqb str_eqb_eq), str_eqb_refl. reflexivity.
    + intros k Hk. rewrite (dget_dset str_eqb str_eqb_eq). destruct (str_eqb_spec k (lit "@base")); [contradiction|reflexivity].
Qed.
Lemma from_url_web url kvs j : wf_json (JObj kvs) -> from_url_data env stem url kvs = Ok j ->
  exists md', j = JObj md' /\ member md' (lit "@base") = Some (base_value stem url kvs) /\
    forall b, base_value stem url kvs = JStr b -> web_metadata stem (fe_join env) url kvs md'.
Proof.
  intros Wf H. destruct (with_base_spec url kvs Wf) as (Wb & Mb & Mo). unfold from_url_data in H.
  assert (Bi : forall b, base_value stem url kvs = JStr b -> base_is stem url kvs b).
  { intros b E. unfold base_value in E. unfold base_is, member. destruct (dget str_eqb kvs (lit "@base")); cbn [getdef] in E; [left; congruence|right; split; [reflexivity|congruence]]. }
  destruct (dget str_eqb kvs (lit "tables")) as [tv|] eqn:T.
  - destruct tv as [| | | | |l|]; try discriminate. apply bind_inv in H as (l' & M & H). apply Ok_inj in H. subst j. eexists. split; [reflexivity|]. split.
    { unfold member. rewrite (dget_dset str_eqb str_eqb_eq). exact Mb. }
    intros b E. rewrite E in *. apply mapM_Forall2 in M.
    assert (Wl : forall x, In x l -> wf_json x). { apply wf_list. apply dget_Some_In in T. apply (proj2 (proj1 (wf_obj _) Wf) _ _ T). }
    assert (F : Forall2 (schema_resolved (fe_join env) b) l l' /\ forall x, In x l' -> wf_json x).
    { clear -M Wl. induction M as [|x y l l' H M IH]; [split; [constructor|intros x []]|]. destruct (resolve_schema_from b x y (Wl _ (or_introl eq_refl)) H) as [Wy R].
      destruct IH as [F1 F2]; [intros z I; apply Wl; right; exact I|]. split; [constructor; assumption|]. intros z [<-|I]; [exact Wy|exact (F2 z I)]. }
    destruct F as [F1 F2]. exists b. split; [exact (Bi b eq_refl)|]. split.
    { unfold member. rewrite (dget_dset str_eqb str_eqb_eq). exact Mb. }
    unfold member at 1. rewrite T. exists l'. split; [unfold member; rewrite (dget_dset str_eqb str_eqb_eq), str_eqb_refl; reflexivity|]. split; [exact F1|].
    intros k H1 H2. unfold member. rewrite (dget_dset str_eqb str_eqb_eq). destruct (str_eqb_spec k (lit "tables")); [contradiction|]. exact (Mo k H1).
  - assert (S : exists md', j = JObj md' /\ member md' (lit "@base") = Some (base_value stem url kvs)).
    { unfold resolve_schema in H. destruct (dget str_eqb (with_base stem url kvs) (lit "tableSchema")) as [[]|]; try (apply Ok_inj in H; subst j; eauto).
      apply bind_inv in H as (u & _ & H). apply Ok_inj in H. subst j. eexists. split; [reflexivity|]. unfold member. rewrite (dget_dset str_eqb str_eqb_eq). exact Mb. }
    destruct S as (md' & -> & Mb'). exists md'. split; [reflexivity|]. split; [exact Mb'|]. intros b E. rewrite E in *.
    destruct (resolve_schema_from b _ _ Wb H) as [W' R]. exists b. split; [exact (Bi b eq_refl)|]. split; [exact Mb'|].
    unfold member at 1. rewrite T. exists (with_base stem url kvs). split; [exact Mo|]. split; [exact Mb|exact R].
Qed.
End Web.
