(** Warnings of datatypes, inherited properties and columns. *)
From Verif Require Import PyStr Dsv Json Dialects NatLang Datatype DatatypeProofs Meta MetaSpec MetaProofs MetaProofs2 DsvProofs4
  Column Descr DescrProofs DescrProofs2 DescrProofs3 Load LoadSpec LoadProofs LoadProofs2 LoadProofs5 Warn WarnSpec WarnProofs.

Section Types.
Context {B : Type} (W : world B).
Notation lookup T n := (getdef (dget str_eqb T n) (fun _ : json => @nil lwarn)).
(** one attribute: no warning iff its value, if it has one, is in order *)
Lemma attr_q (w : json -> list lwarn) (R : json -> Prop) (d : object) n def : NoDup (map fst d) -> w def = [] ->
  (forall v, In (n, v) d -> (w v = [] <-> R v)) -> (w (getdef (member d n) def) = [] <-> forall v, In (n, v) d -> R v).
Proof.
  intros Nd D H. unfold member. destruct (dget str_eqb d n) as [v|] eqn:E; cbn [getdef].
  - pose proof (dget_Some_In d n v E) as I. rewrite (H v I). split; [|intros A; exact (A v I)]. intros A v' I'. rewrite (In_dget d n v' Nd I') in E. injection E as ->. exact A.
  - split; [|intros _; exact D]. intros _ v I. apply (dget_None_In d n) in E. elim E. apply in_map_iff. exists (n, v). auto.
Qed.
Lemma quiet_Forall fs T (d : object) : attrs_quiet fs T d <-> Forall (fun f : field B => lookup T (fd_name f) (getdef (member d (fd_name f)) (fd_default f)) = []) fs.
Proof. unfold attrs_quiet. rewrite Forall_forall. reflexivity. Qed.

Lemma based_ok j o : wf_json j -> datatype_fromvalue W j = Ok o ->
  fromvalue W (Datatype_class W) (JObj (based (type_object j))) = Ok o /\ wf_json (JObj (based (type_object j))).
Proof.
  intros Wf H. destruct j as [| | | |s| |d]; try discriminate H.
  - cbn [type_object]. change (based [(lit "base", JStr s)]) with [(lit "base", JStr s)]. rewrite dt_of_str. split; [exact H|].
    apply wf_obj. split; [repeat constructor; intros []|]. intros k v [E|[]]. injection E as _ <-. exact I.
  - cbn [type_object]. split; [exact H|]. unfold based. destruct (has (lit "base") d) eqn:Hb; [exact Wf|].
    apply wf_obj in Wf. destruct Wf as [N A]. apply wf_obj. split.
    + rewrite map_app. apply NoDup_app_intro; [exact N|repeat constructor; intros []|].
      intros x H1 [<-|[]]. apply has_member in Hb. apply dget_None_In in Hb. exact (Hb H1).
    + intros k v I. apply in_app_iff in I. destruct I as [I|[I|[]]]; [exact (A k v I)|]. injection I as _ <-. exact Logic.I.
Qed.
Lemma based_In d k v : In (k, v) (based d) <-> In (k, v) d \/ (has (lit "base") d = false /\ k = lit "base" /\ v = JStr (lit "string")).
Proof.
  unfold based. destruct (has (lit "base") d).
  - split; [tauto|]. intros [H|[H _]]; [exact H|discriminate H].
  - rewrite in_app_iff. cbn [In]. split.
    + intros [H|[H|[]]]; [left; exact H|]. right. injection H as <- <-. auto.
    + intros [H|(_ & -> & ->)]; [left; exact H|right; left; reflexivity].
Qed.
Lemma datatype_warns_based j o : truthy j = true -> datatype_fromvalue W j = Ok o ->
  datatype_warns W j = fromvalue_warns W (Datatype_class W) datatype_table (datatype_post_warns W) (JObj (based (type_object j))).
Proof.
  intros T H. unfold datatype_warns. rewrite T. destruct j as [| | | |s| |d]; try discriminate H; [|reflexivity].
  cbn [type_object]. reflexivity.
Qed.
Lemma in_datatypes_word v : in_datatypes v = true <-> is_word (map fst DATATYPES) v.
Proof.
  unfold in_datatypes, is_word. destruct v; try (split; [discriminate|intros (s0 & E & _); discriminate E]).
  destruct (dget str_eqb DATATYPES s) as [c|] eqn:E.
  - split; [|reflexivity]. intros _. exists s. split; [reflexivity|]. apply dget_Some_In in E. apply (in_map fst) in E. exact E.
  - split; [discriminate|]. intros (s0 & X & I). injection X as <-. apply (dget_None_In DATATYPES s) in E. contradiction.
Qed.
Lemma base_nil v : v <> JNull -> (conv_warns TStr true in_datatypes v = [] <-> nested (is_word (map fst DATATYPES)) v).
Proof.
  intros Nn. rewrite (conv_nil TStr true in_datatypes (is_word (map fst DATATYPES))); [tauto|discriminate|intros l (s & E & _); discriminate E|intros (s & E & _); discriminate E|].
  intros u _. rewrite andb_true_iff, in_datatypes_word. split; [tauto|]. intros H. split; [|exact H]. destruct H as (s & -> & _). reflexivity.
Qed.
Lemma field_names_datatype k : In k (field_names (Datatype_class W)) <-> In k datatype_keys.
Proof. reflexivity. Qed.

Lemma bound_nil n f j : bound_warns W n f (MJ j) = [] <-> (j <> JNull -> w_noisy W n f j = false).
Proof. unfold bound_warns. destruct j; try (destruct (w_noisy W n f _); split; intros; try reflexivity; try discriminate; match goal with H : _ -> _ = false |- _ => specialize (H ltac:(discriminate)); discriminate H end). split; [intros _ H; congruence|reflexivity]. Qed.
Lemma bounds_nil n f d : NoDup (map fst d) ->
  (flat_map (bound_warns W n f) [MJ (getdef (member d (lit "minimum")) JNull); MJ (getdef (member d (lit "maximum")) JNull);
     MJ (getdef (member d (lit "minInclusive")) JNull); MJ (getdef (member d (lit "maxInclusive")) JNull);
     MJ (getdef (member d (lit "minExclusive")) JNull); MJ (getdef (member d (lit "maxExclusive")) JNull)] = []
   <-> forall k v, In k bound_keys -> In (k, v) d -> v <> JNull -> w_noisy W n f v = false).
Proof.
  intros Nd.
  assert (Q : forall k, bound_warns W n f (MJ (getdef (member d k) JNull)) = [] <-> forall v, In (k, v) d -> v <> JNull -> w_noisy W n f v = false).
  { intros k. apply (attr_q (fun j => bound_warns W n f (MJ j)) (fun v => v <> JNull -> w_noisy W n f v = false)); [exact Nd|reflexivity|]. intros v _. apply bound_nil. }
  cbn [flat_map]. rewrite !app_nil_iff, !Q. unfold bound_keys. cbn [map In]. split.
  - intros (A1 & A2 & A3 & A4 & A5 & A6 & _) k v [<-|[<-|[<-|[<-|[<-|[<-|[]]]]]]] I; auto.
  - intros A. split; [|split; [|split; [|split; [|split; [|split]]]]]; try reflexivity; intros v I; (eapply A; [|exact I]); auto 8.
Qed.
Theorem datatype_nil j o : wf_json j -> truthy j = true -> datatype_fromvalue W j = Ok o -> (datatype_warns W j = [] <-> datatype_in_order W j).
Proof.
  intros Wf T H. rewrite (datatype_warns_based j o T H). destruct (based_ok j o Wf H) as [E Wb].
  destruct (fromvalue_quiet W (Datatype_class W) datatype_table (datatype_post_warns W) _ _ Wb (names_datatype W) E) as (common & at_ & vals & F & P & _ & Q). rewrite Q. clear Q.
  assert (Nd : NoDup (map fst (type_object j))).
  { destruct j; try (cbn; constructor; fail); [cbn; repeat constructor; intros []|]. apply wf_obj in Wf. apply Wf. }
  apply wf_obj in Wb. destruct Wb as [Nb Wb].
  unfold datatype_in_order. set (d := type_object j) in *. cbn zeta.
  cbn [Datatype_class cl_fields datatype_fields bound_names map app] in F.
  apply F2_cons in F. destruct F as (v0 & t & -> & F0 & F). apply F2_cons in F. destruct F as (v1 & t1 & -> & F1 & F).
  apply F2_cons in F. destruct F as (v2 & t2 & -> & F2 & F). apply F2_cons in F. destruct F as (v3 & t3 & -> & F3 & F).
  apply F2_cons in F. destruct F as (v4 & t4 & -> & F4 & F). apply F2_cons in F. destruct F as (v5 & t5 & -> & F5 & F).
  apply F2_cons in F. destruct F as (v6 & t6 & -> & F6 & F). apply F2_cons in F. destruct F as (v7 & t7 & -> & F7 & F).
  apply F2_cons in F. destruct F as (v8 & t8 & -> & F8 & F). apply F2_cons in F. destruct F as (v9 & t9 & -> & F9 & F).
  apply F2_cons in F. destruct F as (v10 & t10 & -> & F10 & F). apply F2_nil in F. subst t10.
  apply raw_from in F1, F5, F6, F7, F8, F9, F10; try discriminate. subst v1 v5 v6 v7 v8 v9 v10.
  cbn [Datatype_class cl_post] in P. unfold datatype_post in P. cbn [o_vals o_at o_num o_common] in P.
  assert (Ef : getdef (member d (lit "format")) JNull = format_of d) by (unfold format_of; destruct (member d (lit "format")); reflexivity).
  pose proof F0 as Fb. destruct (base_from _ _ F0) as [-> | ->]; [discriminate P|].
  (* the base *)
  assert (Bq : forall v, In (lit "base", v) (based d) -> (conv_warns TStr true in_datatypes v = [] <-> is_word (map fst DATATYPES) v)).
  { intros v I. apply (In_dget (based d) (lit "base") v Nb) in I. unfold attr_from in Fb. change (fd_name base_field) with (lit "base") in Fb. unfold member in Fb. rewrite I in Fb. cbn [getdef fd_conv base_field] in Fb.
    assert (Nn : v <> JNull). { intros ->. discriminate Fb. }
    rewrite (base_nil v Nn). split; [|intros X; apply ne_one; exact X]. intros X. inversion X as [x Hx|l Hl]; subst; [exact Hx|]. discriminate Fb. }
  assert (Aq : attrs_quiet (cl_fields (Datatype_class W)) datatype_table (based d) <-> forall k v, In (k, v) (based d) -> k = lit "base" -> is_word (map fst DATATYPES) v).
  { rewrite quiet_Forall. cbn [Datatype_class cl_fields datatype_fields bound_names map app]. rewrite !Forall_cons_iff.
    assert (One : lookup datatype_table (fd_name (@base_field B)) (getdef (member (based d) (fd_name (@base_field B))) (fd_default (@base_field B))) = [] <-> forall v, In (lit "base", v) (based d) -> is_word (map fst DATATYPES) v).
    { change (lookup datatype_table (fd_name (@base_field B))) with (conv_warns TStr true in_datatypes). apply attr_q; [exact Nb|reflexivity|exact Bq]. }
    rewrite One. split; [intros (A & _) k v I ->; exact (A v I)|]. intros A. split; [intros v I; exact (A _ v I eq_refl)|]. repeat split; try reflexivity. constructor. }
  rewrite <- and_assoc. rewrite (object_quiet W (Datatype_class W) _ _ datatype_table (based d) (proj2 (wf_obj _) (conj Nb Wb)) field_names_datatype Aq).
  assert (Oq : object_in_order W (fun k => In k datatype_keys) (fun k v => k = lit "base" -> is_word (map fst DATATYPES) v) (based d) <->
               object_in_order W (fun k => In k datatype_keys) (fun k v => k = lit "base" -> is_word (map fst DATATYPES) v) d).
  { split; intros [O1 O2 O3 O4].
    - split; intros; try (eapply O1; apply based_In; left; eassumption); try (eapply O2; apply based_In; left; eassumption); try (eapply O3; [apply based_In; left; eassumption|..]; eassumption); eapply O4; [apply based_In; left; eassumption|assumption].
    - assert (S : In (lit "string") (map fst DATATYPES)) by (apply str_mem_In; vm_compute; reflexivity). split.
      + intros k v I. apply based_In in I. destruct I as [I|(_ & -> & _)]; [exact (O1 k v I)|]. right. right. left. reflexivity.
      + intros v I. apply based_In in I. destruct I as [I|(_ & X & _)]; [exact (O2 v I)|discriminate X].
      + intros k v I. apply based_In in I. destruct I as [I|(_ & -> & _)]; [exact (O3 k v I)|]. intros X. exfalso. revert X. apply char_mem_false. vm_compute. reflexivity.
      + intros k v I. apply based_In in I. destruct I as [I|(_ & _ & ->)]; [exact (O4 k v I)|]. intros _. exists (lit "string"). auto. }
  rewrite Oq. assert (Tr : forall X : Prop, (truthy j = true -> X) <-> X) by (intros X; rewrite T; tauto). rewrite Tr. clear Tr. apply and_iff_compat_l.
  unfold datatype_post_warns. cbn [o_vals]. rewrite Ef in *. set (n := type_name d) in *.
  rewrite !app_nil_iff, (bounds_nil n (format_of d) d Nd). apply and_iff_compat_l.
  assert (Od : (if w_odd_format W n (format_of d) then [LDatatype] else []) = [] <-> w_odd_format W n (format_of d) = false) by (destruct (w_odd_format W n (format_of d)); split; intros X; try discriminate X; reflexivity).
  rewrite Od. apply and_iff_compat_l.
  destruct (dget str_eqb DATATYPES n) as [c|] eqn:Ec; [|discriminate P].
  match type of P with bind ?x _ = _ => destruct x as [[FF keep]|] eqn:PI; [|discriminate P] end.
  destruct (post_init_lengths _ _ _ _ _ _ _ _ PI) as (_ & _ & _ & pat & Dp & _). pose proof (dget_Some_In _ _ _ Ec) as InD.
  destruct (dclass_eqb c CDecimal) eqn:Edc.
  - assert (c = CDecimal) by (destruct c; try discriminate Edc; reflexivity). pose proof (proj1 (decimal_names _ _ InD) H0) as Dn. subst c. rewrite Dp.
    pose proof (derived_spec W CDecimal n (format_of d) pat eq_refl Dp) as DS. destruct pat as [s|].
    + destruct (forallb (fun x => char_mem x pattern_chars) s) eqn:Fp.
      * split; [|reflexivity]. intros _ p x _ Hp Hx. apply pattern_chars_spec. assert (X : Some s = Some p) by (apply DS; left; exact Hp). injection X as ->. exact (proj1 (forallb_forall _ _) Fp x Hx).
      * split; [discriminate|]. intros A. exfalso. assert (G : forallb (fun x => char_mem x pattern_chars) s = true); [|congruence]. apply forallb_forall. intros x Hx. apply pattern_chars_spec.
        destruct (proj1 (DS s) eq_refl) as [Hp|[_ ->]]; [exact (A s x Dn Hp Hx)|destruct Hx].
    + split; [|reflexivity]. intros _ p x _ Hp _. assert (X : None = Some p) by (apply DS; left; exact Hp). discriminate X.
  - split; [|destruct c; try reflexivity; discriminate Edc]. intros _ p x Dn. apply (decimal_names _ _ InD) in Dn. subst c. discriminate Edc.
Qed.
End Types.
