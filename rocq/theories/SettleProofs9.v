(** Serialising and reading again: tables. *)
From Coq Require Import Sorted Permutation.
From Verif Require Import PyStr Dsv Json Dialects DialectProofs NatLang Datatype Column ColumnSpec Meta MetaSpec MetaProofs MetaProofs2 MetaProofs3 Descr DescrSpec DescrProofs DescrProofs2 DescrProofs3
  DescrProofs4 DescrProofs5 DescrProofs6 FromParts SettleSpec SettleProofs SettleProofs2 SettleProofs3 SettleProofs4 SettleProofs5 SettleProofs6 SettleProofs7 SettleProofs8.
From Verif Require ColumnProofs2.
Local Open Scope nat_scope.

Section Settle.
Context {B : Type} (env : world B).
Notation mval := (mval B). Notation mobj := (mobj B). Notation field := (field B). Notation class := (class B).
Notation stored_ok := (stored_ok env).
Hypothesis utf8_known : w_codec env (lit "utf-8") = CKnown.
Hypothesis fetched_wf : forall s j, w_fetch_schema env s = Some j -> wf_json j.
Hypothesis fetched_dialect_wf : forall s at_ j, w_fetch_dialect env s at_ = Ok j -> wf_json j.

(** ** the dialect *)
Definition read_dialect (v : mval) : Prop := v = MJ JNull \/ exists j a, wf_json j /\ v = MDialect a /\ new_dialect env j = Ok a.
Lemma default_dialect_items a : attrs_init (meta_dialect_spec env) [] = Ok a -> attrs_asdict (meta_dialect_spec env) true a = [].
Proof.
  intros Ia. unfold attrs_asdict. destruct (attrs_init_inv _ _ _ Ia) as (vals & -> & L & _ & All).
  rewrite (filter_none _ (combine (map a_name (meta_dialect_spec env)) vals)); [reflexivity|]. intros [k v] Hin.
  assert (X : exists x, In (x, v) (combine (meta_dialect_spec env) vals) /\ a_name x = k).
  { clear - Hin. revert vals Hin. induction (meta_dialect_spec env) as [|y l IH]; intros [|w vals] Hin; try destruct Hin; cbn [combine map] in *.
    - injection H as <- <-. exists y. split; [left; reflexivity|reflexivity].
    - destruct (IH _ H) as (x & X1 & X2). exists x. split; [right; exact X1|exact X2]. }
  destruct X as (x & Hx & <-). destruct (All _ _ Hx) as [Ix _]. cbn [fst snd andb]. apply in_combine_l in Hx.
  rewrite (find_name _ (spec_nodup env) x Hx). apply negb_false_iff.
  unfold init_attr in Ix. cbn [dget getdef] in Ix. destruct (spec_ok env utf8_known x Hx) as (_ & S2 & _). rewrite S2 in Ix. injection Ix as <-.
  apply (py_eq_refl_default env) with (x := x), Hx.
Qed.
Lemma dialect_settles (S : pystr -> mobj -> Prop) (R : pystr -> mobj -> mobj -> Prop) v r : read_dialect v -> contrib (dialect_field env) v r -> exists v', settles_to env S R (dialect_field env) v v' /\ read_dialect v'.
Proof.
  intros [->|(j & a & Wj & -> & Ha)] C.
  - exists (MJ JNull). split; [|left; reflexivity]. constructor; [exists JNull; split; [exact I|reflexivity]|apply (default_survives env S (dialect_field env))|left; split; [right; reflexivity|reflexivity]|auto].
  - pose proof (dialect_rt env utf8_known j a Ha) as Rt. destruct (attrs_asdict (meta_dialect_spec env) true a) as [|x l] eqn:E.
    + assert (Da : attrs_init (meta_dialect_spec env) [] = Ok a) by exact Rt. exists (MJ JNull). split; [|left; reflexivity].
      constructor; [exists JNull; split; [exact I|reflexivity]|apply (default_survives env S (dialect_field env))|left; split; [exact Da|reflexivity]|]. intros r' Hr.
      assert (r' = []) as ->; [|apply default_contrib; reflexivity]. unfold contrib, omitted in Hr. cbn [equals_default andb dialect_field fd_ser] in Hr. destruct Hr as (j' & Ej & ->). rewrite E in Ej. apply Ok_inj in Ej. subst j'. reflexivity.
    + assert (Nd : attrs_init (meta_dialect_spec env) [] <> Ok a) by (intros D; apply default_dialect_items in D; congruence).
      exists (MDialect a). split; [|right; exists j, a; auto]. constructor; [|exact Nd|right; split; [exact Nd|reflexivity]|auto].
      exists j. split; [exact Wj|]. cbn [dialect_field fd_conv]. destruct j; try (rewrite Ha; reflexivity); (contradiction Nd).
Qed.
(** ** the schema *)
Lemma schema_field_settles (K S : pystr -> mobj -> Prop) (R : pystr -> mobj -> mobj -> Prop) : (forall x, K (lit "tableSchema") x -> schema_keeps env x) -> (forall x, schema_survives env x -> S (lit "tableSchema") x) ->
  (forall x x', schema_settled env x x' -> R (lit "tableSchema") x x') -> field_settles env K S R (schema_field env).
Proof.
  intros D1 D2 D3 v (j & Wj & Hc) (r & X) V. cbn [schema_field fd_conv] in Hc.
  assert (Y : (exists s, v = MJ (JStr s) /\ w_fetch_schema env s = None) \/ exists w o, wf_json w /\ v = MObj o /\ fromvalue env (Schema_class env) w = Ok o).
  { unfold schema_fromvalue in Hc.
    assert (Y : forall w, wf_json w -> (o <- fromvalue env (Schema_class env) (match w with JObj _ => w | _ => JObj [] end) ;; Ok (MObj o)) = Ok v ->
       exists w o, wf_json w /\ v = MObj o /\ fromvalue env (Schema_class env) w = Ok o).
    { intros w Ww H. destruct (fromvalue env _ _) as [o|] eqn:E in H; [|discriminate H]. cbn [bind] in H. injection H as <-.
      eexists _, o. split; [|split; [reflexivity|exact E]]. destruct w; try exact Ww; apply wf_obj; (split; [apply NoDup_nil|intros k v []]). }
    destruct j as [| | | |s| |]; try (right; exact (Y _ Wj Hc)).
    destruct (w_fetch_schema env s) as [w|] eqn:Fs; [right; exact (Y _ (fetched_wf _ _ Fs) Hc)|]. injection Hc as <-. eauto. }
  clear Hc. destruct Y as [(s & -> & Fs)|(w & o & Ww & -> & Ho)].
  - exists (MJ (JStr s)). constructor; [exists (JStr s); split; [exact I|]; cbn [schema_field fd_conv]; unfold schema_fromvalue; rewrite Fs; reflexivity| | |auto].
    + cbn [value_survives]. split; [intros [D|D]; discriminate D|discriminate].
    + right. split; [|reflexivity]. cbn [not_written]. intros [[[D|D] _]|D]; discriminate D.
  - cbn [value_keeps schema_field fd_name] in V. unfold contrib, omitted in X. cbn [equals_default andb schema_field fd_ser] in X. destruct X as (j' & Ej & ->).
    destruct (asdict (Schema_class env) true o) as [d|] eqn:E; [|discriminate Ej]. cbn [bind] in Ej. apply Ok_inj in Ej. subst j'.
    destruct (schema_settles env w o d Ww Ho (D1 _ V) E) as (k & o' & A1 & A2 & A3 & A4 & A5). exists (MObj o'). constructor.
    + exists (JObj k). split; [exact A1|]. cbn [schema_field fd_conv]. unfold schema_fromvalue. rewrite A2. reflexivity.
    + cbn [value_survives]. apply D2, A4.
    + right. split; [intros []|]. exists o'. split; [reflexivity|apply D3, A5].
    + intros r'. unfold contrib, omitted. cbn [equals_default andb schema_field fd_ser]. rewrite E, A3. auto.
Qed.
Definition schemas_settle (K S : pystr -> mobj -> Prop) (R : pystr -> mobj -> mobj -> Prop) : Prop :=
  (forall x, K (lit "tableSchema") x -> schema_keeps env x) /\ (forall x, schema_survives env x -> S (lit "tableSchema") x) /\ (forall x x', schema_settled env x x' -> R (lit "tableSchema") x x').
Lemma rest_fields_settle (K S : pystr -> mobj -> Prop) (R : pystr -> mobj -> mobj -> Prop) : schemas_settle K S R -> Forall (field_settles env K S R) (rest_fields env).
Proof.
  intros (D1 & D2 & D3). repeat (apply Forall_cons; [|]); try apply Forall_nil.
  - apply plain_field_settles; cbn; tauto || reflexivity.
  - apply plain_settles; [repeat split|reflexivity|]. intros j v H. cbn [fd_conv] in H. destruct (converter TStr _ false _ j); try discriminate H. apply Ok_inj in H. eauto.
  - apply schema_field_settles; assumption.
  - apply plain_settles; [split; [cbn; tauto|split; reflexivity]|reflexivity|]. intros j v H. cbn [fd_conv] in H. destruct (check_transformations env j); [|discriminate H]. cbn [bind] in H. apply Ok_inj in H. eauto.
  - apply link_settles.
Qed.

(** ** what tables and groups have in common; [x] is the attribute that is added to those of TableLike *)
Lemma tablelike_settles (K S : pystr -> mobj -> Prop) (R : pystr -> mobj -> mobj -> Prop) (C : class) (x : field) d o d' :
  cl_fields C = tablelike_fields env ++ [x] -> names_ok C -> wf_json (fd_default x) ->
  (forall o o', cl_post C o = Ok o' -> tablelike_post env o = Ok o') ->
  (forall o y z, cl_post C o = Ok y -> tablelike_post env z = Ok z ->
     Forall2 (fun fv v' => value_settled env R (fst fv) (snd fv) v') (combine (rest_fields env ++ [x]) (skipn 12 (o_vals y))) (skipn 12 (o_vals z)) -> cl_post C z = Ok z) ->
  datatypes_settle env K S R -> schemas_settle K S R -> field_settles env K S R x ->
  wf_json d -> fromvalue env C d = Ok o -> id_keeps o -> Forall2 (value_keeps K) (cl_fields C) (o_vals o) ->
  asdict C true o = Ok d' ->
  exists j o', wf_json (JObj j) /\ fromvalue env C (JObj j) = Ok o' /\ asdict C true o' = Ok d' /\ obj_survives env S C o' /\ obj_settled env R C o o'.
Proof.
  intros HC HN Hx P1 P2 Sd Ss Fx W H Ik V E.
  assert (Wf : forall f, In f (cl_fields C) -> wf_json (fd_default f)).
  { rewrite HC. apply wf_defaults_app; [|repeat constructor; exact Hx]. apply Forall_app. split; [apply description_wf|].
    repeat (apply Forall_cons; [cbn; tauto|]); apply Forall_nil. }
  destruct (fromvalue_parts env _ _ _ W Wf H) as (common & at_ & vals & St & Wa & F & P). pose proof P as P'. apply P1 in P'.
  assert (HC' : cl_fields C = description_fields env ++ dialect_field env :: (rest_fields env ++ [x])) by (rewrite HC, tablelike_split, <- app_assoc; reflexivity).
  rewrite HC' in F. apply F2_app_inv in F. destruct F as (dv & cv & -> & F1 & F2).
  assert (Ld : length dv = 11%nat) by (symmetry; exact (Forall2_length _ _ _ F1)).
  apply F2_cons in F2. destruct F2 as (dl & rest & -> & Cd & F2).
  rewrite tablelike_post_eq in P' by exact Ld.
  destruct (match dl with MJ (JStr s) => _ | _ => _ end) as [dl'|] eqn:Edl; [|discriminate P']. cbn [bind] in P'.
  destruct (at_post env at_) as [at2|] eqn:Ea; [|discriminate P']. cbn [bind] in P'. apply Ok_inj in P'.
  assert (Dv : read_dialect dl').
  { destruct Cd as (j & Wj & Hc). cbn [dialect_field fd_conv] in Hc. clear - Hc Edl Wj fetched_dialect_wf.
    destruct j as [| | | |s| |];
      try (destruct (new_dialect env _) as [a|] eqn:En in Hc; [|discriminate Hc]; cbn [bind] in Hc; apply Ok_inj in Hc; subst dl; apply Ok_inj in Edl; subst dl';
           right; eexists _, a; split; [exact Wj|split; [reflexivity|exact En]]).
    - apply Ok_inj in Hc. subst dl. apply Ok_inj in Edl. subst dl'. left; reflexivity.
    - apply Ok_inj in Hc. subst dl. destruct (w_fetch_dialect env s at_) as [jd|] eqn:Ef; [|discriminate Edl]. cbn [bind] in Edl.
      destruct (new_dialect env jd) as [a|] eqn:En; [|discriminate Edl]. cbn [bind] in Edl. apply Ok_inj in Edl. subst dl'. right. exists jd, a. split; [eapply fetched_dialect_wf, Ef|auto]. }
  subst o. cbn [o_vals] in V. unfold id_keeps in Ik. cbn [o_at] in Ik.
  destruct (at_post_again env _ _ Ea) as (Ea2 & Keys & _).
  assert (Nd2 : NoDup (map fst at2)) by (rewrite Keys; apply (st_at_nodup _ _ _ _ St)).
  assert (Ea' : at_post env (filter full at2) = Ok (filter full at2)) by (apply at_post_full; assumption).
  (* what is kept of the "@" properties *)
  assert (St2 : stored_ok C (filter full common) (filter full at2)).
  { assert (In2 : forall k v, In (k, v) at2 -> k = lit "id" \/ k = lit "context" \/ In (k, v) at_) by (apply (at_post_again env _ _ Ea)).
    constructor.
    - apply Forall_forall. intros y Hy. apply filter_In in Hy. pose proof (st_common _ _ _ _ St) as Q. rewrite Forall_forall in Q. apply Q, Hy.
    - apply filter_sorted, (st_common_sorted _ _ _ _ St).
    - apply NoDup_filter_fst, (st_common_nodup _ _ _ _ St).
    - apply filter_sorted. eapply sorted_fst; [symmetry; exact Keys|apply (st_at_sorted _ _ _ _ St)].
    - apply NoDup_filter_fst, Nd2.
    - intros v Hin. apply filter_In in Hin. destruct Hin as [Hin _]. apply In2 in Hin. destruct Hin as [D|[D|Hin]]; [discriminate D|discriminate D|]. apply (st_type _ _ _ _ St _ Hin).
    - intros v Hin. pose proof (survives_filter _ _ _ Hin) as Ne. apply filter_In in Hin. destruct Hin as [Hin _]. destruct (Ik v Hin) as [->|[Em|H']]; [auto|contradiction|auto]. }
  assert (Sort2 : Sorted key_le at2) by (eapply sorted_fst; [symmetry; exact Keys|apply (st_at_sorted _ _ _ _ St)]).
  assert (Wa2 : forall k v, In (k, v) (filter full at2) -> wf_json v).
  { intros k v Hin. apply filter_In in Hin. destruct Hin as [Hin _]. revert k v Hin. eapply at_post_wf; [exact Wa| |exact Ea]. intros j Hj. destruct (Ik j Hj) as [->|[[->| ->]|(s & -> & _)]]; try exact I; (apply wf_list; intros ? []) || (apply wf_obj; split; [apply NoDup_nil|intros ? ? []]). }
  assert (L : length (cl_fields C) = length (dv ++ dl' :: rest)).
  { rewrite HC', !app_length, Ld. cbn [length]. rewrite (Forall2_length _ _ _ F2). reflexivity. }
  destruct (asdict_parts _ _ _ _ _ _ L E) as (rs & Cr & Ed).
  rewrite HC' in V, Cr. apply F2_split in V; [|symmetry; exact Ld]. destruct V as [V0 V]. apply F2_cc in V. destruct V as [_ V].
  apply contributes_app in Cr; [|symmetry; exact Ld]. destruct Cr as (rs0 & rs1 & -> & Cr0 & Cr1). unfold contributes in Cr1. cbn [combine] in Cr1. apply F2_cons in Cr1. destruct Cr1 as (r1 & rs2 & -> & X1 & Cr2). cbn [fst snd] in X1.
  destruct (fields_settle env K S R _ _ _ (description_fields_settle env K S R Sd) F1 V0 Cr0) as (dv' & L' & F1' & SV0 & R0 & Cr0').
  assert (Ld' : length dv' = 11) by congruence.
  destruct (dialect_settles S R dl' r1 Dv X1) as (dl2 & [C1' SV1 R1 Y1] & Dv2). apply Y1 in X1. clear Y1.
  assert (Fr : Forall (field_settles env K S R) (rest_fields env ++ [x])) by (apply Forall_app; split; [apply rest_fields_settle, Ss|repeat constructor; exact Fx]).
  destruct (fields_settle env K S R _ _ _ Fr F2 V Cr2) as (rest' & L2 & F2' & SV2 & R2 & Cr2').
  set (o' := MO None (filter full common) (filter full at2) (dv' ++ dl2 :: rest')).
  assert (Sk : forall (l : list mval) v r, length l = 11 -> skipn 12 (l ++ v :: r) = r).
  { intros l v r Hl. replace 12%nat with (length (l ++ [v])) by (rewrite app_length, Hl; reflexivity).
    replace (l ++ v :: r) with ((l ++ [v]) ++ r) by (rewrite <- app_assoc; reflexivity). rewrite skipn_app, skipn_all, Nat.sub_diag. reflexivity. }
  assert (Po : cl_post C o' = Ok o').
  { eapply P2; [exact P| |unfold o'; cbn [o_vals]; rewrite !Sk by assumption; exact R2]. unfold o'. rewrite tablelike_post_eq by exact Ld'.
    assert (Edl2 : match dl2 with
       | MJ (JStr s) => j <- w_fetch_dialect env s (filter full at2) ;; a <- new_dialect env j ;; Ok (MDialect a)
       | _ => Ok dl2 end = Ok dl2) by (destruct Dv2 as [->|(j & a & _ & -> & _)]; reflexivity).
    rewrite Edl2. cbn [bind]. rewrite Ea'. reflexivity. }
  destruct (from_parts env C (filter full common) (filter full at2) (dv' ++ dl2 :: rest') o' HN St2 Wa2) as (j & Wj & Hj); [|exact Po|].
  { rewrite HC'. apply Forall2_app; [exact F1'|]. apply Forall2_cons; [exact C1'|exact F2']. }
  assert (L3 : length (cl_fields C) = length (dv' ++ dl2 :: rest')) by (rewrite L, !app_length; cbn [length]; congruence).
  exists j, o'. split; [exact Wj|]. split; [exact Hj|]. split; [|split].
  - rewrite Ed. unfold o'. rewrite (asdict_build C None (filter full common) (filter full at2) (dv' ++ dl2 :: rest') (rs0 ++ r1 :: rs2) L3).
    + rewrite (sorted_sort _ (st_at_sorted _ _ _ _ St2)), (sorted_sort _ Sort2), (sorted_sort _ (st_common_sorted _ _ _ _ St)), (sorted_sort _ (st_common_sorted _ _ _ _ St2)).
      rewrite keep_at, (keep_common env C common at_ St). reflexivity.
    + rewrite HC'. apply app_contributes; [symmetry; exact Ld'|exact Cr0'|]. unfold contributes. cbn [combine]. apply Forall2_cons; [exact X1|exact Cr2'].
  - constructor; cbn [o_common o_at o_vals o']; [apply survives_filter|apply survives_filter|apply (st_id _ _ _ _ St2)|].
    rewrite HC'. apply Forall2_app; [exact SV0|]. apply Forall2_cons; [exact SV1|exact SV2].
  - constructor; cbn [o_num o_common o_at o_vals o']; [reflexivity|apply kept_filter|apply kept_filter|].
    rewrite HC', combine_app by (symmetry; exact Ld). apply Forall2_app; [exact R0|]. cbn [combine]. apply Forall2_cons; [exact R1|exact R2].
Qed.
End Settle.
