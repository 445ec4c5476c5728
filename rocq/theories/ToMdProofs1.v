(** C70: what the objects of the metadata say about what is shown. *)
From Coq Require Import Permutation.
From Verif Require Import PyStr Dsv Json Dec Dialects DialectSpec NatLang Datatype DatatypeSpec DatatypeProofs Meta MetaSpec MetaProofs MetaProofs2 MetaProofs3 DsvProofs4 Names Zip Locate LocateSpec
  Column Schema Table TableSpec Files Descr DescrSpec DescrProofs DescrProofs2 DescrProofs3 DescrProofs4 DescrProofs5 Load LoadSpec LoadProofs LoadProofs2 LoadProofs3 LoadProofs4 LoadProofs5 FrictionlessProofs2
  WarnSpec Cli CliSpec CliProofs1 CliProofs2 CliProofs3 CliProofs4 Frictionless Markdown ToMd ToMdSpec.
From Verif Require JsonTextProofs JsonldProofs ToJsonSpec ToJsonProofs2.
Local Open Scope nat_scope.
Section Says.
Context {B : Type} (W : world B).
Variables (bound_str : B -> pystr) (present : pystr -> bool).
Hypothesis Us : usual W.

(** ** Dialects *)
Lemma j_strs_wf l ss : j_strs l = Some ss -> wf_json (JList l).
Proof.
  intros H. apply DialectProofs.j_strs_map in H. subst l. apply wf_list. intros x Hx. apply in_map_iff in Hx. destruct Hx as (s & <- & _). exact I.
Qed.
Lemma spec_names : forall n, In n (map a_name (meta_dialect_spec W)) <-> In n dialect_names.
Proof.
  assert (A : forallb (fun n => str_mem n dialect_names) (map a_name (meta_dialect_spec W)) = true) by reflexivity.
  assert (C : forallb (fun n => str_mem n (map a_name (meta_dialect_spec W))) dialect_names = true) by reflexivity.
  rewrite forallb_forall in A. rewrite forallb_forall in C. intros n. split; intros H; apply str_mem_In; [exact (A n H)|exact (C n H)].
Qed.
Lemma attr_wf a x : to_dialect a = Some x -> forall n, In n dialect_names -> wf_json (attr_of a n).
Proof.
  intros T. unfold to_dialect in T.
  destruct (j_str (attr_of a (lit "encoding"))) as [e|] eqn:E1; [|discriminate T].
  destruct (match attr_of a (lit "lineTerminators") with JList l => j_strs l | JStr s => Some [s] | _ => None end) as [l|] eqn:E2; [|discriminate T].
  destruct (j_optstr (attr_of a (lit "quoteChar"))) as [q|] eqn:E3; [|discriminate T].
  destruct (j_bool (attr_of a (lit "doubleQuote"))) as [dq|] eqn:E4; [|discriminate T].
  destruct (j_nat (attr_of a (lit "skipRows"))) as [sr|] eqn:E5; [|discriminate T].
  destruct (j_optstr (attr_of a (lit "commentPrefix"))) as [cp|] eqn:E6; [|discriminate T].
  destruct (j_bool (attr_of a (lit "header"))) as [h|] eqn:E7; [|discriminate T].
  destruct (j_nat (attr_of a (lit "headerRowCount"))) as [hc|] eqn:E8; [|discriminate T].
  destruct (j_str (attr_of a (lit "delimiter"))) as [dl|] eqn:E9; [|discriminate T].
  destruct (j_nat (attr_of a (lit "skipColumns"))) as [sc|] eqn:E10; [|discriminate T].
  destruct (j_bool (attr_of a (lit "skipBlankRows"))) as [sb|] eqn:E11; [|discriminate T].
  destruct (j_bool (attr_of a (lit "skipInitialSpace"))) as [si|] eqn:E12; [|discriminate T].
  destruct (j_trim (attr_of a (lit "trim"))) as [t|] eqn:E13; [|discriminate T]. clear T.
  assert (S : forall v s, j_str v = Some s -> wf_json v) by (intros [] ? H; try discriminate H; exact I).
  assert (O : forall v s, j_optstr v = Some s -> wf_json v) by (intros [] ? H; try discriminate H; exact I).
  assert (D : forall v s, j_bool v = Some s -> wf_json v) by (intros [] ? H; try discriminate H; exact I).
  assert (C : forall v s, j_nat v = Some s -> wf_json v) by (intros [] ? H; try discriminate H; exact I).
  assert (Tr : forall v m, j_trim v = Some m -> wf_json v) by (intros [] ? H; try discriminate H; exact I).
  assert (Ln : wf_json (attr_of a (lit "lineTerminators"))).
  { destruct (attr_of a (lit "lineTerminators")); try discriminate E2; [exact I|]. exact (j_strs_wf _ _ E2). }
  intros n H. unfold dialect_names in H. cbn [In] in H.
  destruct H as [<-|H]; [exact (S _ _ E1)|]. destruct H as [<-|H]; [exact Ln|]. destruct H as [<-|H]; [exact (O _ _ E3)|]. destruct H as [<-|H]; [exact (D _ _ E4)|].
  destruct H as [<-|H]; [exact (C _ _ E5)|]. destruct H as [<-|H]; [exact (O _ _ E6)|]. destruct H as [<-|H]; [exact (D _ _ E7)|]. destruct H as [<-|H]; [exact (C _ _ E8)|].
  destruct H as [<-|H]; [exact (S _ _ E9)|]. destruct H as [<-|H]; [exact (C _ _ E10)|]. destruct H as [<-|H]; [exact (D _ _ E11)|]. destruct H as [<-|H]; [exact (D _ _ E12)|].
  destruct H as [<-|H]; [exact (Tr _ _ E13)|]. destruct H.
Qed.
Lemma dialect_source t at_ v a : wf_json (JObj t) -> attr_from t (dialect_field W) v ->
  match v with MJ (JStr s) => j <- w_fetch_dialect W s at_ ;; a <- new_dialect W j ;; Ok (MDialect a) | _ => Ok v end = Ok (MDialect a) ->
  exists j, new_dialect W j = Ok a.
Proof.
  intros Wf F E. 
  assert (F' : match getdef (member t (lit "dialect")) JNull with JNull | JStr _ => Ok (MJ (getdef (member t (lit "dialect")) JNull)) | _ => a <- new_dialect W (getdef (member t (lit "dialect")) JNull) ;; Ok (MDialect a) end = Ok v) by exact F. clear F.
  set (g := getdef (member t (lit "dialect")) JNull) in *.
  assert (D : forall j, (a <- new_dialect W j ;; Ok (MDialect a)) = Ok v -> exists j, new_dialect W j = Ok a).
  { intros j H. apply bind_inv in H as (a' & H & X). apply Ok_inj in X. subst v. cbv iota in E. apply Ok_inj in E. injection E as ->. eauto. }
  destruct g; try exact (D _ F').
  - apply Ok_inj in F'. subst v. discriminate E.
  - apply Ok_inj in F'. subst v. apply bind_inv in E as (j & _ & E). apply bind_inv in E as (a' & N & E). apply Ok_inj in E. injection E as ->. eauto.
Qed.
Lemma md_dialect_ok t at_ v v' o : wf_json (JObj t) -> at_from t at_ -> attr_from t (dialect_field W) v ->
  match v with MJ (JStr s) => j <- w_fetch_dialect W s at_ ;; a <- new_dialect W j ;; Ok (MDialect a) | _ => Ok v end = Ok v' ->
  md_dialect W v' = Ok o -> dialect_read W t o.
Proof.
  intros Wf At F E H.
  destruct v' as [j| | | | | |a| | |]; try discriminate H.
  - destruct j; try discriminate H. apply Ok_inj in H. subst o.
    pose proof (dialect_field_from W (us_dialect _ Us) t at_ v (MJ JNull) None Wf At F E eq_refl) as D. inversion D; assumption.
  - cbn [md_dialect] in H. destruct (to_dialect a) as [x|] eqn:T; [|discriminate H]. apply Ok_inj in H. subst o.
    assert (Ld : load_dialect (@MDialect B a) = Ok (Some x)) by (cbn [load_dialect]; rewrite T; reflexivity).
    pose proof (dialect_field_from W (us_dialect _ Us) t at_ v (MDialect a) (Some x) Wf At F E Ld) as D.
    destruct (dialect_source t at_ v a Wf F E) as (j & Nj). pose proof (dialect_rt W (us_utf8 _ Us) j a Nj) as Rt.
    assert (In_a : exists kw, attrs_init (meta_dialect_spec W) kw = Ok a). { unfold new_dialect in Nj. apply bind_inv in Nj as (kw & _ & Nj). eauto. }
    destruct In_a as (kw & Ia). pose proof (init_names W kw a Ia) as Na.
    assert (Nda : NoDup (map fst a)) by (rewrite Na; apply spec_nodup).
    assert (Nd : NoDup (map fst (attrs_asdict (meta_dialect_spec W) true a))) by (apply NoDup_filter_fst; exact Nda).
    assert (Key : forall k u, In (k, u) a -> In k dialect_names).
    { intros k u I. apply (proj1 (spec_names k)). exact (eq_ind _ (fun l => In k l) (in_map (@fst pystr json) a (k, u) I) _ Na). }
    assert (In_names : forall k v, In (k, v) (attrs_asdict (meta_dialect_spec W) true a) -> In k dialect_names /\ v = attr_of a k).
    { intros k u I. apply filter_In in I. destruct I as [I _]. split; [exact (Key k u I)|].
      unfold attr_of. rewrite (proj1 (JsonTextProofs.dget_In_unique a k u Nda) I). reflexivity. }
    assert (Wd : wf_json (JObj (attrs_asdict (meta_dialect_spec W) true a))).
    { apply wf_obj. split; [exact Nd|]. intros k u I. destruct (In_names k u I) as [N1 ->]. exact (attr_wf a x T k N1). }
    split; [|split; [exact Nd|]].
    + exists x. split; [exact D|]. exact (dialect_from W (JObj (attrs_asdict (meta_dialect_spec W) true a)) a x Wd Rt T).
    + intros k u I. split; [exact (proj1 (In_names k u I))|]. intros ->.
      apply filter_In in I. destruct I as [I Nn]. cbn [fst snd andb] in Nn.
      pose proof (Key k _ I) as Hk.
      clear -Nn Hk. unfold dialect_names in Hk. cbn [In] in Hk. repeat (destruct Hk as [<-|Hk]; [vm_compute in Nn; discriminate Nn|]). destruct Hk.
Qed.
End Says.
