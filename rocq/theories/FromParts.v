(** Descriptions from their parts: the converse of DescrProofs.fromvalue_inv. *)
From Verif Require Import PyStr Dsv Json Dialects NatLang Datatype Meta MetaSpec MetaProofs MetaProofs2 MetaProofs3 DsvProofs4 Descr DescrProofs.
From Coq Require Import Permutation Sorted.
Local Open Scope nat_scope.

Lemma map_fst_combine {A X} : forall (a : list A) (b : list X), length a = length b -> map fst (combine a b) = a.
Proof. induction a as [|x a IH]; intros [|y b] L; try discriminate L; [reflexivity|]. injection L as L. cbn. rewrite IH by exact L. reflexivity. Qed.

Section Parts.
Context {B : Type} (env : world B).
Let tag_ok := w_tag_ok env.
Notation mval := (mval B).
Notation mobj := (mobj B).
Notation field := (field B).
Notation class := (class B).
Notation fromvalue := (fromvalue env).
Notation stored_ok := (stored_ok env).

(** the class without what is done after building *)
Definition bare (C : class) : class := {| cl_name := cl_name C; cl_fields := cl_fields C; cl_private := cl_private C; cl_post := fun o => Ok o |}.
Lemma bare_value (C : class) d o : fromvalue C d = Ok o -> exists o0, fromvalue (bare C) d = Ok o0 /\ cl_post C o0 = Ok o.
Proof.
  unfold Descr.fromvalue, new_object. change (all_names (bare C)) with (all_names C). change (field_names (bare C)) with (field_names C).
  cbn [bare cl_name cl_fields cl_post].
  destruct (partition_properties _ _ _ _ _) as [[[p|] ws]|]; cbn [bind fst]; try discriminate.
  destruct (negb _); [discriminate|]. destruct (mapM _ _) as [vals|]; [|discriminate]. cbn [bind]. intros H. eexists. split; [reflexivity|exact H].
Qed.
Lemma bare_at_wf (C : class) d o0 : wf_json d -> fromvalue (bare C) d = Ok o0 -> forall k v, In (k, v) (o_at o0) -> wf_json v.
Proof.
  intros W H k v Hin. unfold Descr.fromvalue in H. change (all_names (bare C)) with (all_names C) in H. cbn [bare cl_name] in H.
  destruct (partition_properties (w_tag_ok env) (all_names C) (cl_name C) true d) as [[po ws]|] eqn:P; [|discriminate].
  cbn [bind fst] in H. destruct po as [p|]; [|discriminate].
  assert (G : exists kvs, (forall k v, In (k, v) kvs -> wf_json v) /\ p_at p = expected_at (all_names C) true kvs).
  { assert (G0 : exists kvs, wf_json (JObj kvs) /\ partition_properties tag_ok (all_names C) (cl_name C) true (JObj kvs) = Ok (Some p, ws)).
    { unfold partition_properties in P. destruct (truthy d) eqn:T.
      - destruct d as [| | | | | |kvs]; try discriminate P. exists kvs. split; [exact W|]. unfold partition_properties.
        rewrite T. exact P.
      - exists []. split; [apply wf_obj; split; [apply NoDup_nil|intros k' v' []]|exact P]. }
    destruct G0 as (kvs & W' & P'). apply wf_obj in W'. destruct W' as [Nd W2]. exists kvs.
    split; [exact W2|]. destruct (partition_sound' tag_ok (all_names C) (cl_name C) true kvs (Some p) ws Nd) as (A & E & _); [|exact P'|].
    { intros k' v' Hk _. eapply W2, Hk. }
    injection E as ->. reflexivity. }
  destruct G as (kvs & Wk & Ep). apply new_object_inv in H. destruct H as (vals & F & V & H). cbn [bare cl_post] in H. apply Ok_inj in H. subst o0.
  cbn [o_at] in Hin. apply (Permutation_in _ (sort_items_perm _)) in Hin. rewrite Ep in Hin. unfold expected_at in Hin. apply in_map_iff in Hin.
  destruct Hin as ([k0 v0] & E & Hin). cbn [fst snd] in E. apply with_fate_In in Hin. destruct Hin as [Hin Fk]. specialize (Wk _ _ Hin).
  pose proof (f_equal snd E) as E2. cbn [snd] in E2. subst v. destruct (str_eq_dec _ _); [|exact Wk]. destruct v0; exact Wk || exact I.
Qed.
Lemma fromvalue_parts (C : class) d o : wf_json d -> (forall f, In f (cl_fields C) -> wf_json (fd_default f)) ->
  fromvalue C d = Ok o ->
  exists common at_ vals, stored_ok C common at_ /\ (forall k v, In (k, v) at_ -> wf_json v) /\ Forall2 converted (cl_fields C) vals /\
    cl_post C (MO None common at_ vals) = Ok o.
Proof.
  intros Wd D H. destruct (bare_value C d o H) as (o0 & H0 & P). pose proof (bare_at_wf C d o0 Wd H0) as Wa.
  destruct (fromvalue_inv env (bare C) d o0 Wd D H0) as (common & at_ & vals & St & F & E). cbn [bare cl_post] in E. apply Ok_inj in E. subst o0.
  exists common, at_, vals. split; [|split; [exact Wa|split; [exact F|exact P]]].
  destruct St as [S1 S2 S3 S4 S5 S6 S7]. constructor; assumption.
Qed.

(** any such parts are those of a description; of one with all attributes *)
Theorem from_parts_named (C : class) common at_ vals o :
  names_ok C -> stored_ok C common at_ -> (forall k v, In (k, v) at_ -> wf_json v) -> Forall2 converted (cl_fields C) vals ->
  cl_post C (MO None common at_ vals) = Ok o -> exists d, wf_json (JObj d) /\ fromvalue C (JObj d) = Ok o /\ forall n, In n (field_names C) -> In n (map fst d).
Proof.
  intros [Hn1 Hn2] S Wa FV PV. apply nodupb_ok in Hn2.
  assert (R : exists raws, length (field_names C) = length raws /\ Forall wf_json raws /\ Forall2 (fun fj v => fd_conv (fst fj) (snd fj) = Ok v) (combine (cl_fields C) raws) vals).
  { clear -FV. unfold field_names. induction FV as [|f v fs vs (j & Wj & E) F (raws & L & Wr & R)]; [exists []; repeat constructor|]. exists (j :: raws).
    split; [cbn; congruence|]. split; constructor; assumption. }
  destruct R as (raws & Lr & Wr & R).
  set (ats := map (fun kv : pystr * json => (lit "@" ++ fst kv, snd kv)) at_).
  set (attrs' := combine (field_names C) raws).
  set (d := ats ++ common ++ attrs'). exists d.
  assert (Ka : forall kv, In kv attrs' -> In (fst kv) (field_names C)).
  { intros [k j] H. apply in_combine_l in H. exact H. }
  assert (Pl : forall n, In n (field_names C) -> plain_name n).
  { intros n H. rewrite forallb_forall in Hn1. apply plain_nameb_ok, Hn1, H. }
  assert (Fa : Forall (fun kv : pystr * json => fate_of (all_names C) true (fst kv) = FAttr) attrs').
  { apply Forall_forall. intros kv H. apply fate_field; [|apply Pl, Ka, H]. unfold all_names. right; right. apply in_or_app. right. apply Ka, H. }
  assert (Fc : Forall (fun kv : pystr * json => fate_of (all_names C) true (fst kv) = FCommon) common).
  { eapply Forall_impl; [|apply (st_common _ _ _ _ S)]. intros kv (H1 & H2 & _). apply fate_common_iff. auto. }
  assert (Ft : Forall (fun kv : pystr * json => fate_of (all_names C) true (fst kv) = FAt) ats).
  { apply Forall_forall. intros kv H. unfold ats in H. apply in_map_iff in H. destruct H as (x & <- & H). apply fate_at_iff. eexists; reflexivity. }
  destruct (with_fate_all_at _ _ Ft) as (T1 & T2 & T3). destruct (with_fate_all_common _ _ Fc) as (C1 & C2 & C3).
  destruct (with_fate_all_attr _ _ Fa) as (A1 & A2 & A3).
  assert (X1 : expected_at (all_names C) true d = at_).
  { unfold expected_at, d. rewrite !with_fate_app, T1, C2, A3, !app_nil_r. unfold ats. rewrite map_map. rewrite <- map_id.
    apply map_ext_in. intros [k v] H. cbn [fst snd]. cbn [lit app tl].
    destruct (str_eq_dec _ _) as [D|D]; [|reflexivity]. injection D as ->. destruct (st_id _ _ _ _ S v H) as [->|(s & -> & _)]; reflexivity. }
  assert (X2 : expected_common (w_tag_ok env) (all_names C) true d = common).
  { unfold expected_common. unfold d; rewrite !with_fate_app, T2, C1, A2, !app_nil_r. cbn [app]. rewrite <- map_id.
    apply map_ext_in. intros [k v] H. cbn [fst snd]. pose proof (st_common _ _ _ _ S) as Q. rewrite Forall_forall in Q.
    destruct (Q _ H) as (_ & _ & _ & _ & Q'). cbn [snd] in Q'. rewrite Q'. reflexivity. }
  assert (X3 : expected_attrs (all_names C) true d = attrs').
  { unfold expected_attrs. unfold d; rewrite !with_fate_app, T3, C3, A1. reflexivity. }
  assert (Nd : NoDup (map fst d)).
  { unfold d; rewrite !map_app. apply (@NoDup_app_intro pystr).
    - unfold ats. rewrite map_map. cbn [fst]. clear -S. pose proof (st_at_nodup _ _ _ _ S) as N. revert N. generalize at_. clear.
      intros l. induction l as [|x l IH]; intros N; [constructor|]. cbn [map] in *. apply NoDup_cons_iff in N. destruct N as [N1 N2].
      constructor; [|auto]. intros H. apply N1. apply in_map_iff in H. destruct H as (y & Ey & H). injection Ey as Ey.
      apply in_map_iff. exists y; auto.
    - apply (@NoDup_app_intro pystr).
      + apply (st_common_nodup _ _ _ _ S).
      + unfold attrs'. rewrite map_fst_combine; [exact Hn2|exact Lr].
      + intros k H1 H2. apply in_map_iff in H1, H2. destruct H1 as (x & Ex & H1), H2 as (y & Ey & H2).
        rewrite Forall_forall in Fc, Fa. specialize (Fc x H1). specialize (Fa y H2). cbn beta in Fc, Fa. subst k. unfold pystr in *. rewrite <- Ey in Fc. rewrite Fc in Fa. discriminate Fa.
    - intros k H1 H2. rewrite in_app_iff in H2. apply in_map_iff in H1. destruct H1 as (x & Ex & H1).
      rewrite Forall_forall in Ft. specialize (Ft x H1). cbn beta in Ft. destruct H2 as [H2|H2]; apply in_map_iff in H2; destruct H2 as (y & Ey & H2);
      rewrite Forall_forall in Fc, Fa; [specialize (Fc y H2); cbn beta in Fc; subst k; unfold pystr in *; rewrite <- Ey in Ft; rewrite Ft in Fc; discriminate Fc|specialize (Fa y H2); cbn beta in Fa; subst k; unfold pystr in *; rewrite <- Ey in Ft; rewrite Ft in Fa; discriminate Fa]. }
  assert (Wd : forall k v, In (k, v) d -> fate_of (all_names C) true k = FCommon -> wf_json v).
  { intros k v H F. unfold d in H. rewrite !in_app_iff in H. rewrite Forall_forall in Ft, Fa. destruct H as [H|[H|H]].
    - specialize (Ft _ H). cbn [fst] in Ft. congruence.
    - pose proof (st_common _ _ _ _ S) as Q. rewrite Forall_forall in Q. apply (Q _ H).
    - specialize (Fa _ H). cbn [fst] in Fa. congruence. }
  assert (Acc : accepted (all_names C) (cl_name C) true d).
  { split.
    - intros r H. unfold d in H; rewrite !in_app_iff in H. rewrite Forall_forall in Fc, Fa. destruct H as [H|[H|H]].
      + unfold ats in H. apply in_map_iff in H. destruct H as ([k v] & Ek & H). cbn [fst snd] in Ek. injection Ek as -> ->.
        destruct (st_id _ _ _ _ S _ H) as [D|(s & Es & Hs)]; [discriminate D|]. injection Es as <-. discriminate Hs.
      + specialize (Fc _ H). cbn [fst] in Fc. apply fate_common_iff in Fc. destruct Fc as [D _]. discriminate D.
      + specialize (Ka _ H). apply Pl in Ka. destruct Ka as [D _]. discriminate D.
    - intros v H. unfold d in H; rewrite !in_app_iff in H. rewrite Forall_forall in Fc, Fa. destruct H as [H|[H|H]].
      + unfold ats in H. apply in_map_iff in H. destruct H as ([k v'] & Ek & H). cbn [fst snd] in Ek. injection Ek as -> ->.
        apply (st_type _ _ _ _ S _ H).
      + specialize (Fc _ H). cbn [fst] in Fc. apply fate_common_iff in Fc. destruct Fc as [D _]. discriminate D.
      + specialize (Ka _ H). apply Pl in Ka. destruct Ka as [D _]. discriminate D.
    - intros k v H F. unfold d in H; rewrite !in_app_iff in H. rewrite Forall_forall in Ft, Fa. destruct H as [H|[H|H]].
      + specialize (Ft _ H). cbn [fst] in Ft. congruence.
      + pose proof (st_common _ _ _ _ S) as Q. rewrite Forall_forall in Q. apply (Q _ H).
      + specialize (Fa _ H). cbn [fst] in Fa. congruence.
    - intros k v H F. unfold d in H; rewrite !in_app_iff in H. rewrite Forall_forall in Ft, Fc. destruct H as [H|[H|H]].
      + specialize (Ft _ H). cbn [fst] in Ft. congruence.
      + specialize (Fc _ H). cbn [fst] in Fc. congruence.
      + specialize (Ka _ H). apply Pl in Ka. cbn [fst] in Ka. destruct Ka as (_ & _ & D1 & D2). auto. }
  assert (Names : forall n, In n (field_names C) -> In n (map fst d)).
  { intros n Hn. unfold d. rewrite !map_app, !in_app_iff. right. right. unfold attrs'. rewrite map_fst_combine by exact Lr. exact Hn. }
  rewrite <- and_assoc. split; [|exact Names]. clear Names.
  split.
  { apply wf_obj. split; [exact Nd|]. intros k v H. unfold d in H. rewrite !in_app_iff in H. destruct H as [H|[H|H]].
    - unfold ats in H. apply in_map_iff in H. destruct H as ([k' v'] & Ek & H). cbn [fst snd] in Ek. injection Ek as _ <-. eapply Wa, H.
    - pose proof (st_common _ _ _ _ S) as Q. rewrite Forall_forall in Q. apply (Q _ H).
    - rewrite Forall_forall in Wr. apply Wr. eapply in_combine_r, H. }
  destruct (partition_complete' (w_tag_ok env) _ _ _ d Nd Wd Acc) as [[po ws] P']. unfold Descr.fromvalue. rewrite P'. cbn [bind fst].
  destruct (partition_sound' (w_tag_ok env) _ _ _ d _ _ Nd Wd P') as (_ & -> & _). rewrite X1, X2, X3. unfold new_object. cbn [p_attrs p_common p_at].
  assert (K : forallb (fun kv : pystr * json => str_mem (fst kv) (field_names C)) attrs' = true).
  { apply forallb_forall. intros kv H. apply str_mem_In, Ka, H. }
  rewrite K. cbn [negb].
  assert (M : mapM (fun f => fd_conv f (getdef (dget str_eqb attrs' (fd_name f)) (fd_default f))) (cl_fields C) = Ok vals).
  { apply mapM_Forall2. unfold attrs'. clear -Hn2 Lr R. unfold field_names in *.
    assert (G : forall pre : list (pystr * json), (forall f, In f (cl_fields C) -> dget str_eqb pre (fd_name f) = None) ->
      Forall2 (fun f v => fd_conv f (getdef (dget str_eqb (pre ++ combine (map (@fd_name B) (cl_fields C)) raws) (fd_name f)) (fd_default f)) = Ok v) (cl_fields C) vals); [|apply (G [] (fun _ _ => eq_refl))].
    revert raws vals Lr R. induction (cl_fields C) as [|f fs IH]; intros [|j raws] vals L R pre Hp; try discriminate L; inversion R as [|? v ? vs R1 R2]; subst; constructor.
    - rewrite dget_app by apply str_eqb_eq. rewrite (Hp f (or_introl eq_refl)). cbn [map combine dget]. rewrite str_eqb_refl. exact R1.
    - cbn [map] in Hn2. apply NoDup_cons_iff in Hn2. destruct Hn2 as [N1 N2]. injection L as L.
      specialize (IH N2 raws vs L R2 (pre ++ [(fd_name f, j)])). cbn [map combine]. change (pre ++ (fd_name f, j) :: combine (map (@fd_name B) fs) raws) with (pre ++ [(fd_name f, j)] ++ combine (map (@fd_name B) fs) raws).
      rewrite app_assoc. apply IH. intros f' Hf. rewrite dget_app by apply str_eqb_eq. rewrite (Hp f' (or_intror Hf)). rewrite dget_skip; [reflexivity|].
      intros X. apply N1. rewrite <- X. apply in_map, Hf. }
  rewrite M. cbn [bind]. rewrite (sorted_sort at_ (st_at_sorted _ _ _ _ S)), (sorted_sort common (st_common_sorted _ _ _ _ S)). exact PV.
Qed.
Theorem from_parts (C : class) common at_ vals o :
  names_ok C -> stored_ok C common at_ -> (forall k v, In (k, v) at_ -> wf_json v) -> Forall2 converted (cl_fields C) vals ->
  cl_post C (MO None common at_ vals) = Ok o -> exists d, wf_json (JObj d) /\ fromvalue C (JObj d) = Ok o.
Proof. intros N S Wa F P. destruct (from_parts_named C common at_ vals o N S Wa F P) as (d & D1 & D2 & _). eauto. Qed.
End Parts.
