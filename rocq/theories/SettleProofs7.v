(** Serialising and reading again: schemas. *)
From Coq Require Import Sorted Permutation.
From Verif Require Import PyStr Dsv Json Dialects NatLang Datatype Column ColumnSpec Meta MetaSpec MetaProofs MetaProofs2 MetaProofs3 Descr DescrSpec DescrProofs DescrProofs2 DescrProofs3 FromParts
  SettleSpec SettleProofs SettleProofs2 SettleProofs3 SettleProofs4 SettleProofs5 SettleProofs6.
From Verif Require ColumnProofs2.
Local Open Scope nat_scope.

Section Settle.
Context {B : Type} (env : world B).
Notation mval := (mval B). Notation mobj := (mobj B). Notation field := (field B). Notation class := (class B).
Notation stored_ok := (stored_ok env).

Lemma columns_contrib cols r : contrib (columns_field env) (MObjs cols) r ->
  cols = [] /\ r = [] \/ cols <> [] /\ exists js, written_list (Column_class env) cols = Ok js /\ r = filter keep [(lit "columns", JList js)].
Proof.
  intros C. unfold contrib, omitted in C. cbn [andb columns_field fd_default fd_ser fd_name] in C. destruct cols as [|c cols]; [left; auto|]. right. split; [discriminate|].
  cbn [equals_default] in C. destruct C as (j & E & ->). destruct (mapM _ (c :: cols)) as [js|] eqn:M; [|discriminate E]. cbn [bind] in E. apply Ok_inj in E. subst j. exists js. auto.
Qed.
Lemma contrib_columns cols js : cols <> [] -> written_list (Column_class env) cols = Ok js -> contrib (columns_field env) (MObjs cols) (filter keep [(lit "columns", JList js)]).
Proof.
  intros N E. unfold contrib, omitted. cbn [andb columns_field fd_default fd_ser fd_name]. destruct cols as [|c cols]; [contradiction|]. cbn [equals_default].
  exists (JList js). split; [|reflexivity]. unfold written_list in E. rewrite E. reflexivity.
Qed.

Theorem schema_settles d o d' : wf_json d -> fromvalue env (Schema_class env) d = Ok o -> schema_keeps env o -> asdict (Schema_class env) true o = Ok d' ->
  exists j o', wf_json (JObj j) /\ fromvalue env (Schema_class env) (JObj j) = Ok o' /\ asdict (Schema_class env) true o' = Ok d' /\
    schema_survives env o' /\ schema_settled env o o'.
Proof.
  intros W H V E. destruct (fromvalue_parts env _ _ _ W (schema_wf env) H) as (common & at_ & vals & St & Wa & F & P).
  cbn [Schema_class cl_fields] in F. unfold schema_fields in F. apply F2_app_inv in F. destruct F as (dv & cv & -> & F1 & F2).
  assert (Ld : length dv = 11%nat) by (symmetry; exact (Forall2_length _ _ _ F1)).
  apply F2_cons in F2. destruct F2 as (v1 & t & -> & C1 & F2). apply F2_cons in F2. destruct F2 as (v2 & t2 & -> & C2 & F2).
  apply F2_cons in F2. destruct F2 as (v3 & t3 & -> & C3 & F2). apply F2_cons in F2. destruct F2 as (v4 & t4 & -> & C4 & F2).
  apply F2_nil in F2. subst t4.
  cbn [Schema_class cl_post schema_post o_vals] in P. unfold schema_post in P. cbn [o_vals o_num o_common o_at] in P.
  assert (Sk : forall (dv : list mval) (x y z w : mval), length dv = 11 -> skipn 11 (dv ++ [x; y; z; w]) = [x; y; z; w]) by (intros l x y z w L; rewrite <- L, skipn_app, skipn_all, Nat.sub_diag; reflexivity).
  assert (Fn : forall (dv : list mval) (r : list mval), length dv = 11 -> firstn 11 (dv ++ r) = dv) by (intros l r L; rewrite <- L, firstn_app, firstn_all, Nat.sub_diag; cbn; apply app_nil_r).
  rewrite Sk, Fn in P by exact Ld. destruct v1 as [| | | | | | | | |cols]; try discriminate P. destruct v3 as [pk| | | | | | | | |]; try discriminate P.
  destruct (cols_ok false [] cols) as [[]|] eqn:Ck; [|discriminate P]. cbn [bind] in P.
  destruct (pk_ok (number_from 0 cols) _ pk) as [pk'|] eqn:Pk; [|discriminate P]. cbn [bind] in P. apply Ok_inj in P. subst o.
  set (vals := dv ++ [MObjs (number_from 0 cols); v2; MJ pk'; v4]) in *.
  assert (Lv : length (cl_fields (Schema_class env)) = length vals) by (unfold vals; rewrite app_length, Ld; reflexivity).
  destruct (asdict_parts _ _ _ _ _ _ Lv E) as (rs & Cr & Ed).
  set (K := fun (n : pystr) (x : mobj) => (n = lit "columns" -> column_keeps env x) /\ (n = lit "datatype" -> datatype_keeps env x)).
  set (S := fun (n : pystr) (x : mobj) => n = lit "columns" /\ column_survives env x \/ n = lit "datatype" /\ datatype_survives env x).
  set (R := fun (n : pystr) (x x' : mobj) => n = lit "columns" /\ column_settled env x x' \/ n = lit "datatype" /\ datatype_settled env x x').
  assert (D : datatypes_settle env K S R) by (constructor; unfold K, S, R; tauto).
  unfold schema_keeps in V. fold K in V. cbn [Schema_class cl_fields o_vals] in V, Cr. unfold schema_fields, vals in V, Cr.
  apply F2_split in V; [|symmetry; exact Ld]. destruct V as [V0 V]. apply F2_cc in V. destruct V as [V1 V]. apply F2_cc in V. destruct V as [V2 V]. apply F2_cc in V. destruct V as [V3 V]. apply F2_cc in V. destruct V as [V4 _].
  apply contributes_app in Cr; [|symmetry; exact Ld]. destruct Cr as (rs0 & rs1 & -> & Cr0 & Cr1).
  apply F2_cons in Cr1. destruct Cr1 as (r1 & t1 & -> & X1 & Cr1). apply F2_cons in Cr1. destruct Cr1 as (r2 & t2 & -> & X2 & Cr1).
  apply F2_cons in Cr1. destruct Cr1 as (r3 & t3 & -> & X3 & Cr1). apply F2_cons in Cr1. destruct Cr1 as (r4 & t4 & -> & X4 & Cr1). apply F2_nil in Cr1. subst t4. cbn [fst snd] in X1, X2, X3, X4.
  (* the inherited attributes *)
  destruct (fields_settle env K S R _ _ _ (description_fields_settle env K S R D) F1 V0 Cr0) as (dv' & L' & F1' & SV0 & R0 & Cr0').
  assert (Ld' : length dv' = 11) by congruence.
  (* foreign keys, primary key, row titles *)
  destruct (fkeys_settles env K S R v2 C2 (ex_intro _ _ X2) V2) as (v2' & [C2' SV2 R2 Y2]). apply Y2 in X2. clear Y2.
  assert (C3' : converted (plain (lit "primaryKey") JNull conv_colref) (@MJ B pk')).
  { destruct (pk_ok_result _ _ _ _ Pk) as [->| ->]; [exact C3|]. exists JNull. split; [exact I|reflexivity]. }
  destruct (plain_field_settles env K S R (lit "primaryKey") JNull conv_colref I eq_refl eq_refl (MJ pk') C3' (ex_intro _ _ X3) V3) as (v3' & [C3'' SV3 R3 Y3]). apply Y3 in X3. clear Y3.
  destruct (plain_field_settles env K S R (lit "rowTitles") (JList []) (fun j => match j with JList _ => j | _ => JList [j] end) ltac:(cbn; tauto) eq_refl eq_refl v4 C4 (ex_intro _ _ X4) V4)
    as (v4' & [C4' SV4 R4 Y4]). apply Y4 in X4. clear Y4.
  assert (Pk3 : exists pk3, v3' = MJ pk3 /\ (pk3 = pk' \/ pk3 = JNull)).
  { destruct R3 as [[_ ->]|[_ ->]]; eexists; split; try reflexivity; auto. }
  destruct Pk3 as (pk3 & -> & Pk3).
  (* columns *)
  assert (Kc : Forall (column_keeps env) cols).
  { cbn [value_keeps] in V1. apply (numbered_all (column_keeps env)) with (i := 0); [intros; assumption|]. eapply Forall_impl; [|exact V1]. intros c [Hc _]. apply Hc. reflexivity. }
  assert (Cols : exists cols', converted (columns_field env) (MObjs cols') /\ contrib (columns_field env) (MObjs (number_from 0 cols')) r1 /\ Forall (column_survives env) cols' /\ Forall2 (column_settled env) cols cols' /\
    Forall2 seen_alike (number_from 0 cols) (number_from 0 cols') /\ Forall2 seen_alike cols cols').
  { destruct (columns_contrib _ _ X1) as [[Z ->]|[N (js & Ej & ->)]].
    - exists []. assert (cols = []) as -> by (destruct cols as [|[]]; [reflexivity|discriminate Z]). repeat split; try constructor; try exact X1. exists (JList []). split; [exact I|reflexivity].
    - rewrite written_numbered in Ej. destruct (columns_settle env cols js C1 Kc Ej) as (cols' & B1 & B2 & B3 & B4 & B5 & B6). exists cols'. split; [exact B1|]. split; [|auto].
      apply contrib_columns; [|rewrite written_numbered; exact B2]. pose proof (Forall2_length _ _ _ B5) as L. intros Z. rewrite Z in L. destruct (number_from 0 cols); [contradiction|discriminate L]. }
  destruct Cols as (cols' & C1' & X1' & SV1 & R1 & Al1 & Al2).
  pose proof (stored_filter env _ _ _ St) as St'.
  set (o' := MO None (filter full common) (filter full at_) (dv' ++ [MObjs (number_from 0 cols'); v2'; MJ pk3; v4'])).
  assert (P' : cl_post (Schema_class env) (MO None (filter full common) (filter full at_) (dv' ++ [MObjs cols'; v2'; MJ pk3; v4'])) = Ok o').
  { cbn [Schema_class cl_post]. unfold schema_post. cbn [o_vals o_num o_common o_at]. rewrite Sk, Fn by exact Ld'. rewrite (cols_ok_alike cols cols' Al2 _ _ Ck). cbn [bind].
    assert (Pk' : pk_ok (number_from 0 cols') (match pk3 with JList l => l | _ => [] end) pk3 = Ok pk3).
    { destruct Pk3 as [->| ->]; [|reflexivity]. destruct (pk_ok_result _ _ _ _ Pk) as [->| ->]; [|reflexivity]. exact (pk_ok_alike _ _ Al1 _ _ _ Pk). }
    rewrite Pk'. reflexivity. }
  destruct (from_parts env (Schema_class env) (filter full common) (filter full at_) (dv' ++ [MObjs cols'; v2'; MJ pk3; v4']) o' (schema_names env) St') as (j & Wj & Hj); [| |exact P'|].
  { intros k v Hin. apply filter_In in Hin. eapply Wa, Hin. }
  { cbn [Schema_class cl_fields]. unfold schema_fields. apply Forall2_app; [exact F1'|]. repeat (apply Forall2_cons; [assumption|]). apply Forall2_nil. }
  exists j, o'. split; [exact Wj|]. split; [exact Hj|]. split; [|split].
  - rewrite Ed. unfold o'. apply (asdict_same env (Schema_class env) None common at_ _ _ St).
    + rewrite app_length, Ld'. reflexivity.
    + cbn [Schema_class cl_fields]. unfold schema_fields. apply app_contributes; [symmetry; exact Ld'|exact Cr0'|]. repeat (apply Forall2_cons; [assumption|]). apply Forall2_nil.
  - apply survives_stored; [exact St|]. cbn [Schema_class cl_fields]. unfold schema_fields. apply Forall2_app; [exact SV0|]. apply Forall2_cons.
    { cbn [value_survives]. apply (proj2 (numbered_all (S (lit "columns")) ltac:(unfold S; intros n m c a v [[_ X]|[X _]]; [left; split; [reflexivity|eapply survives_renum, X]|discriminate X]) cols' 0)).
      eapply Forall_impl; [|exact SV1]. intros c Hc. left. auto. }
    repeat (apply Forall2_cons; [assumption|]). apply Forall2_nil.
  - constructor; cbn [o_num o_common o_at o_vals o']; [reflexivity|apply kept_filter|apply kept_filter|].
    cbn [Schema_class cl_fields]. unfold schema_fields, vals. rewrite combine_app by (symmetry; exact Ld). apply Forall2_app; [exact R0|]. cbn [combine]. apply Forall2_cons.
    { cbn [fst snd]. right. split; [intros []|]. exists (number_from 0 cols'). split; [reflexivity|].
      apply (numbered_rel (R (lit "columns"))); [unfold R; intros n n' m c a v c' a' v' [[_ X]|[X _]]; [left; split; [reflexivity|eapply settled_renum, X]|discriminate X]|].
      eapply ColumnProofs2.Forall2_impl; [|exact R1]. intros c c' Hc. left. auto. }
    repeat (apply Forall2_cons; [assumption|]). apply Forall2_nil.
Qed.
End Settle.
