(** Serialising and reading again: columns. *)
From Coq Require Import Sorted Permutation.
From Verif Require Import PyStr Dsv Json Dialects NatLang Datatype Column ColumnSpec Meta MetaSpec Descr DescrSpec DescrProofs DescrProofs2 DescrProofs3 FromParts
  SettleSpec SettleProofs SettleProofs2 SettleProofs3.
Local Open Scope nat_scope.

Section Settle.
Context {B : Type} (env : world B).
Notation mval := (mval B). Notation mobj := (mobj B). Notation field := (field B). Notation class := (class B).
Notation stored_ok := (stored_ok env).

(** what is required of objects in "datatype" *)
Record datatypes_settle (K S : pystr -> mobj -> Prop) (R : pystr -> mobj -> mobj -> Prop) : Prop := {
  dts_keeps : forall x, K (lit "datatype") x -> datatype_keeps env x;
  dts_survives : forall x, datatype_survives env x -> S (lit "datatype") x;
  dts_settled : forall x x', datatype_settled env x x' -> R (lit "datatype") x x';
}.
Lemma datatype_field_settles K S R : datatypes_settle K S R -> field_settles env K S R (datatype_field env).
Proof.
  intros [D1 D2 D3] v C (r & X) V. pose proof C as (j & Wj & E). cbn [datatype_field fd_conv] in E. destruct (truthy j) eqn:T.
  - destruct (datatype_fromvalue env j) as [o|] eqn:Ho; [|discriminate E]. cbn [bind] in E. apply Ok_inj in E. subst v. cbn [value_keeps datatype_field fd_name] in V.
    unfold contrib, omitted in X. cbn [equals_default] in X. rewrite andb_false_r in X. destruct X as (j1 & Ej & _). cbn [datatype_field fd_ser] in Ej.
    destruct (datatype_settles env j o j1 Wj Ho (D1 _ V) Ej) as (v' & o' & Wv & Tv & Hv & Av & Sv & Uv). exists (MObj o'). constructor.
    + exists v'. split; [exact Wv|]. cbn [datatype_field fd_conv]. rewrite Tv, Hv. reflexivity.
    + cbn [value_survives]. apply D2, Uv.
    + right. split; [intros []|]. exists o'. split; [reflexivity|apply D3, Sv].
    + intros r'. unfold contrib, omitted. cbn [equals_default]. rewrite andb_false_r. cbn [datatype_field fd_ser]. rewrite Ej, Av. auto.
  - apply Ok_inj in E. subst v. apply mj_settles; [repeat split|reflexivity|exact C].
Qed.
Lemma plain_field_settles K S R n d c : wf_json d -> c d = d -> py_eq d d = true -> field_settles env K S R (plain n d c).
Proof.
  intros W E P. apply plain_settles; [split; [exact W|split; [cbn; rewrite E; reflexivity|exact P]]|reflexivity|]. intros j v H. cbn in H. apply Ok_inj in H. eauto.
Qed.
Lemma description_fields_settle K S R : datatypes_settle K S R -> Forall (field_settles env K S R) (description_fields env).
Proof.
  intros D. unfold description_fields. repeat (apply Forall_cons; [|]); try apply Forall_nil; try apply uri_settles; try (apply plain_field_settles; [cbn; tauto|reflexivity|reflexivity]).
  - apply datatype_field_settles, D.
  - apply plain_settles; [|reflexivity|].
    + split; [exact I|]. split; [|reflexivity]. cbn [lang_field fd_conv fd_default]. destruct (w_tag_ok env _); reflexivity.
    + intros j v H. cbn [lang_field fd_conv] in H. destruct j; try discriminate H. apply Ok_inj in H. eauto.
Qed.
Lemma column_fields_settle K S R : datatypes_settle K S R -> Forall (field_settles env K S R) (column_fields env).
Proof.
  intros D. unfold column_fields. apply Forall_app. split; [apply description_fields_settle, D|].
  repeat (apply Forall_cons; [|]); try apply Forall_nil; try apply titles_settles; apply plain_field_settles; cbn; tauto || reflexivity.
Qed.
Definition column_K (n : pystr) (x : mobj) : Prop := n = lit "datatype" -> datatype_keeps env x.
Theorem column_settles d o d' : wf_json d -> fromvalue env (Column_class env) d = Ok o -> column_keeps env o -> asdict (Column_class env) true o = Ok d' ->
  exists j o', wf_json (JObj j) /\ fromvalue env (Column_class env) (JObj j) = Ok o' /\ asdict (Column_class env) true o' = Ok d' /\
    column_survives env o' /\ column_settled env o o'.
Proof.
  intros W H V E.
  destruct (obj_settles env (fun n x => n = lit "datatype" -> datatype_keeps env x) (fun _ => datatype_survives env)
    (fun n x x' => n = lit "datatype" /\ datatype_settled env x x') (Column_class env) d o d') as (j & o' & Wj & Hj & A1 & A2 & A3); auto.
  - apply column_names.
  - apply column_wf.
  - apply column_fields_settle. constructor; auto.
  - exists j, o'. auto.
Qed.
End Settle.
