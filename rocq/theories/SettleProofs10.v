(** Serialising and reading again: tables and groups. *)
From Coq Require Import Sorted Permutation.
From Verif Require Import PyStr Dsv Json Dialects DialectProofs NatLang Datatype Column ColumnSpec Meta MetaSpec MetaProofs MetaProofs2 MetaProofs3 Descr DescrSpec DescrProofs DescrProofs2 DescrProofs3
  DescrProofs4 DescrProofs5 DescrProofs6 FromParts SettleSpec SettleProofs SettleProofs2 SettleProofs3 SettleProofs4 SettleProofs5 SettleProofs6 SettleProofs7 SettleProofs8 SettleProofs9.
From Verif Require ColumnProofs2.
Local Open Scope nat_scope.

Section Settle.
Context {B : Type} (env : world B).
Notation mval := (mval B). Notation mobj := (mobj B). Notation field := (field B). Notation class := (class B).
Hypothesis utf8_known : w_codec env (lit "utf-8") = CKnown.
Hypothesis fetched_wf : forall s j, w_fetch_schema env s = Some j -> wf_json j.
Hypothesis fetched_dialect_wf : forall s at_ j, w_fetch_dialect env s at_ = Ok j -> wf_json j.

Lemma nth_skipn {A} (d : A) : forall n m (l : list A), nth (n + m) l d = nth m (skipn n l) d.
Proof. induction n as [|n IH]; intros m l; [reflexivity|]. destruct l as [|x l]; [destruct m; reflexivity|]. cbn [Nat.add nth skipn]. apply IH. Qed.

Theorem table_settles d o d' : wf_json d -> fromvalue env (Table_class env) d = Ok o -> table_keeps env o -> asdict (Table_class env) true o = Ok d' ->
  exists j o', wf_json (JObj j) /\ fromvalue env (Table_class env) (JObj j) = Ok o' /\ asdict (Table_class env) true o' = Ok d' /\
    table_survives env o' /\ table_settled env o o'.
Proof.
  intros W H [Ki Kv] E.
  apply (tablelike_settles env utf8_known fetched_wf fetched_dialect_wf (fun n x => (n = lit "tableSchema" -> schema_keeps env x) /\ (n = lit "datatype" -> datatype_keeps env x))
    (fun n x => n = lit "tableSchema" /\ schema_survives env x \/ n = lit "datatype" /\ datatype_survives env x)
    (fun n x x' => n = lit "tableSchema" /\ schema_settled env x x' \/ n = lit "datatype" /\ datatype_settled env x x') (Table_class env)
    (plain (lit "suppressOutput") (JBool false) (fun j => j)) d o d'); try assumption.
  - reflexivity.
  - apply table_names.
  - exact I.
  - intros x y Hx. cbn [Table_class cl_post] in Hx. destruct (tablelike_post env x) as [z|]; [|discriminate Hx]. cbn [bind] in Hx.
    destruct (nth 16 (o_vals z) _); try discriminate Hx; congruence.
  - intros x y z Hx Tz Fz. cbn [Table_class cl_post] in *. destruct (tablelike_post env x) as [w|]; [|discriminate Hx]. cbn [bind] in Hx.
    assert (w = y) by (destruct (nth 16 (o_vals w) _); try discriminate Hx; congruence). subst w. rewrite Tz. cbn [bind].
    change 16 with (12 + 4) in *. rewrite (nth_skipn (MJ JNull) 12 4) in Hx |- *. revert Hx Fz. generalize (skipn 12 (o_vals y)) (skipn 12 (o_vals z)). clear. intros vs ws H F.
    destruct vs as [|v0 [|v1 [|v2 [|v3 [|v4 vs]]]]]; try discriminate H. cbn [nth] in H.
    assert (F4 : exists w4, nth_error ws 4 = Some w4 /\ value_settled env (fun n x x' => n = lit "tableSchema" /\ schema_settled env x x' \/ n = lit "datatype" /\ datatype_settled env x x') (link_field (lit "url")) v4 w4).
    { apply (F2_nth _ _ _ _ F 4 (link_field (lit "url")) v4); reflexivity. }
    destruct F4 as (w4 & E4 & S4). rewrite (nth_error_nth _ _ _ E4). destruct v4; try discriminate H. destruct S4 as [[[] _]|[_ ->]]. reflexivity.
  - constructor; tauto.
  - unfold schemas_settle. tauto.
  - apply plain_field_settles; [exact I|reflexivity|reflexivity].
Qed.
Lemma tables_field_settles (K S : pystr -> mobj -> Prop) (R : pystr -> mobj -> mobj -> Prop) :
  (forall x, K (lit "tables") x -> table_keeps env x) -> (forall x, table_survives env x -> S (lit "tables") x) -> (forall x x', table_settled env x x' -> R (lit "tables") x x') ->
  field_settles env K S R (tables_field env).
Proof.
  intros D1 D2 D3 v (j & Wj & Hc) (r & X) V.
  assert (Y : exists ts ds, v = MObjs ts /\ Forall (fun d => wf_json (JObj d)) ds /\ Forall2 (fun d o => fromvalue env (Table_class env) (JObj d) = Ok o) ds ts).
  { cbn [tables_field fd_conv] in Hc. destruct j as [| | | | |l|]; try discriminate Hc; try (apply Ok_inj in Hc; subst v; exists [], []; repeat split; constructor).
    destruct (mapM _ _) as [ts|] eqn:M; [|discriminate Hc]. cbn [bind] in Hc. apply Ok_inj in Hc. subst v. exists ts. eexists. split; [reflexivity|].
    apply mapM_Forall2 in M. pose proof (proj1 (wf_list l) Wj) as Wl. split; [|exact M].
    apply Forall_forall. intros d Hd. apply in_flat_map in Hd. destruct Hd as (x & Hx & Hd). destruct x; try destruct Hd. subst. apply Wl, Hx. contradiction. }
  clear Hc. destruct Y as (ts & ds & -> & Wd & Ft). cbn [value_keeps tables_field fd_name] in V.
  assert (Kt : Forall (table_keeps env) ts) by (eapply Forall_impl; [|exact V]; exact D1).
  destruct ts as [|t0 ts0].
  - exists (MObjs []). constructor; [exists (JList []); split; [exact I|reflexivity]|constructor|right; split; [intros []|exists []; split; [reflexivity|constructor]]|auto].
  - set (ts := t0 :: ts0) in *. assert (Nn : omitted true (tables_field env) (MObjs ts) = false) by reflexivity.
    unfold contrib in X. rewrite Nn in X. destruct X as (js & Ej & ->). cbn [tables_field fd_ser] in Ej. fold (written_list (Table_class env) ts) in Ej. destruct (written_list (Table_class env) ts) as [jl|] eqn:Mj; [|discriminate Ej]. cbn [bind] in Ej. apply Ok_inj in Ej. subst js.
    destruct (list_settles env (Table_class env) (table_keeps env) (table_survives env) (table_settled env)) with (ds := map (@JObj) ds) (l := ts) (js := jl) as (ks & ts' & B1 & B2 & B3 & B4 & B5); try assumption.
    + intros d o d' W H Ko Ed. apply (table_settles d o d' W H Ko Ed).
    + clear -Wd. induction Wd; constructor; assumption.
    + clear -Ft. induction Ft; constructor; assumption.
    + assert (Ne : ts' <> []) by (intros ->; inversion B5).
      exists (MObjs ts'). constructor.
      * exists (JList (map JObj ks)). split; [apply wf_objs, B1|]. cbn [tables_field fd_conv].
        assert (Fl : flat_map (fun x => match x with JObj d => [d] | _ => [] end) (map JObj ks) = ks).
        { clear. induction ks as [|e l IH]; [reflexivity|]. cbn [map flat_map app]. rewrite IH. reflexivity. }
        rewrite Fl. apply mapM_Forall2 in B2. rewrite B2. reflexivity.
      * cbn [value_survives]. eapply Forall_impl; [|exact B4]. exact D2.
      * right. split; [intros []|]. exists ts'. split; [reflexivity|]. eapply ColumnProofs2.Forall2_impl; [|exact B5]. exact D3.
      * intros r' Hr. unfold contrib in *. rewrite Nn in Hr. destruct ts' as [|t1 ts1]; [contradiction|]. change (omitted true (tables_field env) (MObjs (t1 :: ts1))) with false. cbv iota.
        destruct Hr as (j' & Ej & ->). exists j'. split; [|reflexivity]. cbn [tables_field fd_ser] in *. fold (written_list (Table_class env) ts) in Ej. fold (written_list (Table_class env) (t1 :: ts1)). rewrite B3. rewrite Mj in Ej. exact Ej.
Qed.
Theorem group_settles d o d' : wf_json d -> fromvalue env (TableGroup_class env) d = Ok o -> group_keeps env o -> asdict (TableGroup_class env) true o = Ok d' ->
  exists j o', wf_json (JObj j) /\ fromvalue env (TableGroup_class env) (JObj j) = Ok o' /\ asdict (TableGroup_class env) true o' = Ok d' /\
    group_survives env o' /\ group_settled env o o'.
Proof.
  intros W H [Ki Kv] E.
  apply (tablelike_settles env utf8_known fetched_wf fetched_dialect_wf
    (fun n x => (n = lit "tables" -> table_keeps env x) /\ (n = lit "tableSchema" -> schema_keeps env x) /\ (n = lit "datatype" -> datatype_keeps env x))
    (fun n x => n = lit "tables" /\ table_survives env x \/ n = lit "tableSchema" /\ schema_survives env x \/ n = lit "datatype" /\ datatype_survives env x)
    (fun n x x' => n = lit "tables" /\ table_settled env x x' \/ n = lit "tableSchema" /\ schema_settled env x x' \/ n = lit "datatype" /\ datatype_settled env x x') (TableGroup_class env)
    (tables_field env) d o d'); try assumption.
  - reflexivity.
  - apply group_names.
  - exact I.
  - intros x y Hx. exact Hx.
  - intros x y z _ Tz _. exact Tz.
  - constructor; tauto.
  - unfold schemas_settle. tauto.
  - apply tables_field_settles; tauto.
Qed.
End Settle.
