(** Warnings of tables and groups. *)
From Verif Require Import PyStr Dsv Json Dec Dialects NatLang Datatype Meta MetaSpec MetaProofs MetaProofs2 DsvProofs4
  Column Schema Descr DescrProofs DescrProofs2 DescrProofs3 DescrProofs4 DescrProofs5 Load LoadSpec LoadProofs LoadProofs2 LoadProofs3 LoadProofs4
  Warn WarnSpec WarnProofs WarnProofs2 WarnProofs3 WarnProofs4 WarnProofs5.
Local Open Scope nat_scope.

Section Tables.
Context {B : Type} (W : world B).
Hypothesis Und : w_tag_ok W (lit "und") = true.
Hypothesis Utf8 : w_codec W (lit "utf-8") = CKnown.
Hypothesis schema_wf : forall u j, w_fetch_schema W u = Some j -> wf_json j.
Hypothesis dialect_wf : forall u a j, w_fetch_dialect W u a = Ok j -> wf_json j.
Hypothesis dialect_at : forall u a a', (forall k v, k <> lit "id" -> In (k, v) a <-> In (k, v) a') -> w_fetch_dialect W u a = w_fetch_dialect W u a'.

Lemma schema_value_nil v x : wf_json v -> schema_fromvalue W v = Ok x -> (schema_warns W v = [] <-> schema_in_order W v).
Proof.
  intros Wf H. unfold schema_fromvalue in H. unfold schema_warns, schema_in_order.
  assert (D : forall w x, wf_json w -> (o <- fromvalue W (Schema_class W) (match w with JObj _ => w | _ => JObj [] end) ;; Ok (MObj o)) = Ok x ->
    ((match w with JInt _ | JBool _ => [LSchema] | _ => [] end) ++ fromvalue_warns W (Schema_class W) (schema_table W) (schema_post_warns (B := B)) (match w with JObj _ => w | _ => JObj [] end) = [] <->
     (forall s, w = JObj s -> schema_object_in_order W s) /\ (forall z, w <> JInt z) /\ (forall b, w <> JBool b))).
  { clear -Und. intros w x Wf H. rewrite app_nil_iff. assert (We : wf_json (JObj [])) by (apply wf_obj; split; [constructor|intros k v []]).
    destruct (fromvalue W (Schema_class W) _) as [o|] eqn:E; [|discriminate H]. clear H.
    assert (Q : exists s, match w with JObj _ => w | _ => JObj [] end = JObj s /\ (w = JObj s \/ (forall s', w <> JObj s') /\ s = [])).
    { destruct w; eexists; (split; [reflexivity|]); try (right; split; [discriminate|reflexivity]). left; reflexivity. }
    destruct Q as (s & Qs & Qw). rewrite Qs in *. assert (Ws : wf_json (JObj s)) by (destruct Qw as [->|[_ ->]]; assumption).
    rewrite (schema_nil W Und s o Ws E).
    assert (Em : schema_object_in_order W []).
    { split; [split; intros; contradiction|]. exists []. split; [reflexivity|]. split; [split; [intros d []|intros d n []|intros [|i] j d d' h _ X; discriminate X]|]. intros k i d (v & M & _). discriminate M. }
    destruct Qw as [->|[Nw ->]].
    - split; [intros [_ X]; split; [intros s' E'; injection E' as <-; exact X|split; discriminate]|]. intros (X & _). split; [reflexivity|exact (X s eq_refl)].
    - destruct w; try (split; [intros _; split; [intros s' E'; elim (Nw s' E')|split; discriminate]|intros _; split; [reflexivity|exact Em]]).
      + split; [intros [X _]; discriminate X|]. intros (_ & _ & X). elim (X _ eq_refl).
      + split; [intros [X _]; discriminate X|]. intros (_ & X & _). elim (X _ eq_refl). }
  destruct v as [|b|z|m|u|l|d].
  5:{ destruct (w_fetch_schema W u) as [w|] eqn:Fe.
      - rewrite (D w x (schema_wf _ _ Fe) H). split.
        + intros X. split; [|intros Y; elim (Y u eq_refl)]. intros u' j E Ej. injection E as <-. rewrite Fe in Ej. injection Ej as <-. exact X.
        + intros [X _]. exact (X u w eq_refl Fe).
      - split; [|reflexivity]. intros _. split; [|intros Y; elim (Y u eq_refl)]. intros u' j E Ej. injection E as <-. congruence. }
  all: rewrite (D _ x Wf H); split; [intros X; split; [discriminate|intros _; exact X]|intros [_ X]; apply X; discriminate].
Qed.

Lemma description_field_names k : In k (Description_names W) <-> k = lit "common_props" \/ k = lit "at_props" \/ In k (lit "_parent" :: inherited_keys).
Proof. change (Description_names W) with (lit "common_props" :: lit "at_props" :: lit "_parent" :: inherited_keys). cbn [In]. intuition. Qed.
Lemma transformation_nil x r : wf_json x -> partition_properties (w_tag_ok W) (Description_names W) (lit "Template") true x = Ok r ->
  (parts_warns W (Description_names W) (lit "Template") true x = [] <-> transformation_in_order W x).
Proof.
  intros Wf H. unfold transformation_in_order. destruct x as [|b|z|m|s|l|d].
  1-6: split; [intros _ d E; discriminate E|intros _; unfold parts_warns; rewrite H].
  - cbn in H. apply Ok_inj in H. subst r. reflexivity.
  - destruct b; cbn in H; apply Ok_inj in H; subst r; reflexivity.
  - unfold partition_properties in H. destruct (truthy (JInt z)); cbn in H; apply Ok_inj in H; subst r; reflexivity.
  - unfold partition_properties in H. destruct (truthy (JFloat m)); cbn in H; apply Ok_inj in H; subst r; reflexivity.
  - destruct s; cbn in H; apply Ok_inj in H; subst r; reflexivity.
  - destruct l; cbn in H; apply Ok_inj in H; subst r; reflexivity.
  - rewrite (parts_warns_nil W _ _ _ d _ Wf H). unfold item_quiet.
    assert (N : forall k v, In (k, v) d -> k <> lit "common_props" /\ k <> lit "at_props").
    { destruct r as [po ws]. destruct (partition_sound (w_tag_ok W) _ _ true d po ws Wf H) as (A & _ & _).
      intros k v I. split; intros ->; [destruct (acc_attr _ _ _ _ A _ v I eq_refl) as [X _]|destruct (acc_attr _ _ _ _ A _ v I eq_refl) as [_ X]]; exact (X eq_refl). }
    split.
    + intros X d' E. injection E as <-. split; [|intros v I; exact (proj1 (proj2 (X _ v I)) eq_refl)|intros k v I; exact (proj2 (proj2 (X _ v I)))|auto].
      intros k v I. destruct (X k v I) as [[Y|[Y|Y]] _]; [left; exact Y|right; left; exact Y|]. right. right. specialize (Y eq_refl). apply description_field_names in Y.
      destruct (N k v I) as [N1 N2]. destruct Y as [Y|[Y|Y]]; [contradiction|contradiction|exact Y].
    + intros X k v I. destruct (X d eq_refl) as [O1 O2 O3 _]. split; [|split; [intros ->; exact (O2 v I)|exact (O3 k v I)]].
      destruct (O1 k v I) as [Y|[Y|Y]]; [left; exact Y|right; left; exact Y|]. right. right. intros _. apply description_field_names. auto.
Qed.
Lemma transformations_nil v : wf_json v -> check_transformations W v = Ok tt ->
  (transformations_warns W v = [] <-> exists l, v = JList l /\ forall x, In x l -> transformation_in_order W x).
Proof.
  intros Wf H. destruct v as [|b|z|m|s|l|d]; cbn [transformations_warns]; try (split; [discriminate|intros (l & E & _); discriminate E]).
  cbn [check_transformations] in H. destruct (mapM _ l) as [rs|] eqn:M; [|discriminate H]. apply mapM_Forall2 in M.
  assert (G : forall x, In x l -> (parts_warns W (Description_names W) (lit "Template") true x = [] <-> transformation_in_order W x)).
  { intros x I. destruct (In_nth_error _ _ I) as [i Hi]. destruct (nth_error_F2 _ _ _ i x M Hi) as (r & _ & Hr). exact (transformation_nil x r (proj1 (wf_list l) Wf x I) Hr). }
  rewrite flat_map_nil. split.
  - intros X. exists l. split; [reflexivity|]. intros x I. apply (G x I). exact (X x I).
  - intros (l' & E & X) x I. injection E as <-. apply (G x I). exact (X x I).
Qed.
Lemma dialect_field_nil v x : wf_json v -> fd_conv (dialect_field W) v = Ok x -> (dialect_field_warns W v = [] <-> v = JNull \/ a_string v \/ dialect_in_order W v).
Proof.
  intros Wf H. assert (G : forall y : mval B, (a <- new_dialect W v ;; Ok (MDialect a)) = Ok y -> (dialect_warns W v = [] <-> dialect_in_order W v)).
  { intros y X. destruct (new_dialect W v) as [a|] eqn:N; [|discriminate X]. exact (dialect_nil W Utf8 v a Wf N). }
  cbn [dialect_field fd_conv] in H. unfold dialect_field_warns. destruct v as [|b|z|m|s|l|d].
  2-4,6-7: rewrite (G x H); split; [auto|intros [E|[(s & E)|X]]; [discriminate E|discriminate E|exact X]].
  - split; [auto|reflexivity].
  - split; [intros _; right; left; exists s; reflexivity|reflexivity].
Qed.

(** attributes of tables and groups *)
Record tablelike_attrs (d : object) : Prop := {
  ta_inherited : forall k v, In (k, v) d -> inherited_rule W k v;
  ta_dialect : forall v, In (lit "dialect", v) d -> v = JNull \/ a_string v \/ dialect_in_order W v;
  ta_direction : forall v, In (lit "tableDirection", v) d -> nested (is_word (map lit ["rtl"; "ltr"; "auto"]%string)) v;
  ta_schema : forall v, In (lit "tableSchema", v) d -> schema_in_order W v;
  ta_transformations : forall v, In (lit "transformations", v) d -> exists l, v = JList l /\ forall x, In x l -> transformation_in_order W x;
}.
Definition context_ok (d : object) : Prop := forall v, In (lit "@context", v) d ->
  forall l c t, v = JList l -> In (JObj c) l -> member c (lit "@language") = Some t -> is_tag W t.
Lemma tablelike_rules d : (forall k v, In (k, v) d -> tablelike_rule W k v) <-> tablelike_attrs d /\ context_ok d.
Proof.
  split.
  - intros R. split; [split|].
    + intros k v I. exact (tr_inherited _ _ _ (R k v I)).
    + intros v I. exact (tr_dialect _ _ _ (R _ v I) eq_refl).
    + intros v I. exact (tr_tableDirection _ _ _ (R _ v I) eq_refl).
    + intros v I. exact (tr_tableSchema _ _ _ (R _ v I) eq_refl).
    + intros v I. exact (tr_transformations _ _ _ (R _ v I) eq_refl).
    + intros v I. exact (tr_context _ _ _ (R _ v I) eq_refl).
  - intros [[A1 A2 A3 A4 A5] A6] k v I. split; [exact (A1 k v I)|intros ->; exact (A2 v I)|intros ->; exact (A3 v I)|intros ->; exact (A4 v I)|intros ->; exact (A5 v I)|intros ->; exact (A6 v I)].
Qed.
Lemma tablelike_quiet T (d : object) vals : wf_json (JObj d) -> (forall f, In f (tablelike_fields W) -> dget str_eqb T (fd_name f) = dget str_eqb (tablelike_table W) (fd_name f)) ->
  Forall2 (attr_from d) (tablelike_fields W) vals -> (attrs_quiet (tablelike_fields W) T d <-> tablelike_attrs d).
Proof.
  intros Wf Same F. pose proof (proj1 (wf_obj d) Wf) as [Nd Wfm].
  assert (E : attrs_quiet (tablelike_fields W) T d <-> attrs_quiet (tablelike_fields W) (tablelike_table W) d).
  { unfold attrs_quiet. split; intros H f Hf; specialize (H f Hf); rewrite (Same f Hf) in *; exact H. }
  rewrite E. clear E Same. unfold tablelike_fields in F |- *. apply F2_app_inv in F. destruct F as (dv & cv & -> & Fd & Fc).
  rewrite quiet_app, (description_quiet W Und _ d dv Wf) by (first [exact Fd|intros f Hf; cbn [description_fields In] in Hf; repeat (destruct Hf as [<-|Hf]; [reflexivity|]); destruct Hf]).
  inversion Fc as [|? mdl ? ? Hdl Fc1]; subst. inversion Fc1 as [|? mno ? ? _ Fc2]; subst. inversion Fc2 as [|? mtd ? ? Htd Fc3]; subst.
  inversion Fc3 as [|? msch ? ? Hsch Fc4]; subst. inversion Fc4 as [|? mtr ? ? Htr Fc5]; subst. clear Fc Fc1 Fc2 Fc3 Fc4 Fc5.
  rewrite quiet_Forall, !Forall_cons_iff.
  assert (Q1 : dialect_field_warns W (getdef (member d (lit "dialect")) JNull) = [] <-> forall v, In (lit "dialect", v) d -> v = JNull \/ a_string v \/ dialect_in_order W v).
  { apply attr_q; [exact Nd|reflexivity|]. intros v I. apply (dialect_field_nil v mdl (Wfm _ _ I)).
    unfold attr_from in Hdl. change (fd_name (dialect_field W)) with (lit "dialect") in Hdl. unfold member in Hdl. rewrite (In_dget d _ v Nd I) in Hdl. exact Hdl. }
  assert (Q2 : conv_warns TStr false (str_in table_directions) (getdef (member d (lit "tableDirection")) (JStr (lit "auto"))) = [] <-> forall v, In (lit "tableDirection", v) d -> nested (is_word (map lit ["rtl"; "ltr"; "auto"]%string)) v).
  { apply attr_q; [exact Nd|reflexivity|]. intros v I. rewrite word_nil. apply nested_iff. }
  assert (Hs : schema_fromvalue W (getdef (member d (lit "tableSchema")) JNull) = Ok msch) by exact Hsch.
  assert (Q3 : schema_warns W (getdef (member d (lit "tableSchema")) JNull) = [] <-> forall v, In (lit "tableSchema", v) d -> schema_in_order W v).
  { destruct (member d (lit "tableSchema")) as [j|] eqn:M; cbn [getdef] in *.
    - assert (I : In (lit "tableSchema", j) d) by exact (dget_Some_In _ _ _ M). rewrite (schema_value_nil j msch (Wfm _ _ I) Hs). split; [|intros X; exact (X j I)].
      intros X v I'. apply (In_dget d _ v Nd) in I'. unfold member in M. rewrite M in I'. injection I' as <-. exact X.
    - split; [|intros _; apply (schema_value_nil JNull msch I Hs)].
      + intros _ v I'. apply (In_dget d _ v Nd) in I'. unfold member in M. congruence.
      + split; [discriminate|]. intros _. split; [discriminate|split; discriminate]. }
  assert (Ht : (_ <- check_transformations W (getdef (member d (lit "transformations")) (JList [])) ;; Ok (MJ (getdef (member d (lit "transformations")) (JList [])))) = Ok mtr) by exact Htr.
  destruct (check_transformations W _) as [[]|] eqn:Ct in Ht; [|discriminate Ht]. clear Ht.
  assert (Q4 : transformations_warns W (getdef (member d (lit "transformations")) (JList [])) = [] <-> forall v, In (lit "transformations", v) d -> exists l, v = JList l /\ forall x, In x l -> transformation_in_order W x).
  { apply attr_q; [exact Nd|reflexivity|]. intros v I. apply (transformations_nil v (Wfm _ _ I)). unfold member in Ct. rewrite (In_dget d _ v Nd I) in Ct. exact Ct. }
  split.
  - intros (A0 & A1 & _ & A2 & A3 & A4 & _). split; [exact A0|apply (proj1 Q1); exact A1|apply (proj1 Q2); exact A2|apply (proj1 Q3); exact A3|apply (proj1 Q4); exact A4].
  - intros [A0 A1 A2 A3 A4]. split; [exact A0|]. split; [exact (proj2 Q1 A1)|]. split; [reflexivity|]. split; [exact (proj2 Q2 A2)|]. split; [exact (proj2 Q3 A3)|]. split; [exact (proj2 Q4 A4)|]. split; [reflexivity|constructor].
Qed.
Lemma contexts_nil l l' : mapM (check_context W) l = Ok l' ->
  (flat_map (context_warns W) l = [] <-> forall c t, In (JObj c) l -> member c (lit "@language") = Some t -> is_tag W t).
Proof.
  intros M. apply mapM_Forall2 in M. rewrite flat_map_nil. unfold is_tag, member. split.
  - intros X c t I E. specialize (X _ I). cbn [context_warns] in X. rewrite E in X. destruct (In_nth_error _ _ I) as [i Hi]. destruct (nth_error_F2 _ _ _ i _ M Hi) as (r & _ & Hr).
    cbn [check_context] in Hr. destruct (negb _); [discriminate Hr|]. rewrite E in Hr. destruct t as [| | | |s| |]; try discriminate Hr. destruct (w_tag_ok W s) eqn:Ts; [eauto|discriminate X].
  - intros X x I. destruct x as [| | | | | |c]; try reflexivity. cbn [context_warns]. destruct (dget str_eqb c (lit "@language")) as [t|] eqn:E; [|reflexivity].
    destruct (X c t I E) as (s & -> & Ts). rewrite Ts. reflexivity.
Qed.
Lemma post_nil (d : object) common at_ dv dl rest o : wf_json (JObj d) -> at_from d at_ -> length dv = 11 -> attr_from d (dialect_field W) dl ->
  tablelike_post W (MO None common at_ (dv ++ dl :: rest)) = Ok o ->
  (tablelike_post_warns W (MO None common at_ (dv ++ dl :: rest)) = [] <-> linked_dialect_in_order W d /\ context_ok d).
Proof.
  intros Wf At Ld Hdl P. pose proof (proj1 (wf_obj d) Wf) as [Nd Wfm]. unfold tablelike_post in P. unfold tablelike_post_warns. cbn [o_vals o_at] in *.
  assert (Sk : skipn 11 (dv ++ dl :: rest) = dl :: rest) by (rewrite <- Ld, skipn_app, skipn_all, Nat.sub_diag; reflexivity). rewrite Sk in *. clear Sk.
  rewrite app_nil_iff.
  destruct (match dl with MJ (JStr s) => _ | _ => _ end) as [dl'|] eqn:E1 in P; [|discriminate P]. cbn [bind] in P.
  destruct (match dget_at at_ (lit "id") with Some JNull => _ | _ => _ end) as [at1|] eqn:E2 in P; [|discriminate P]. cbn [bind] in P.
  destruct (match dget_at at1 (lit "context") with Some (JList l) => _ | _ => _ end) as [at2|] eqn:E3 in P; [|discriminate P]. clear P.
  assert (C1 : dget_at at1 (lit "context") = dget_at at_ (lit "context")).
  { unfold dget_at in *. destruct (dget str_eqb at_ (lit "id")) as [[]|]; try (apply Ok_inj in E2; subst at1; reflexivity).
    destruct (Descr.base_of W at_); [|discriminate E2]. cbn [bind] in E2. apply Ok_inj in E2. subst at1. rewrite (dget_dset str_eqb str_eqb_eq). reflexivity. }
  rewrite C1 in E3. unfold dget_at in E3 |- *. rewrite (at_get d at_ (lit "context") Nd At) in * by discriminate. change (lit "@" ++ lit "context") with (lit "@context") in *.
  assert (Qc : match member d (lit "@context") with Some (JList l) => flat_map (context_warns W) l | _ => [] end = [] <-> context_ok d).
  { unfold context_ok. destruct (member d (lit "@context")) as [j|] eqn:M.
    - assert (Only : forall v, In (lit "@context", v) d -> v = j) by (intros v I; apply (In_dget d _ v Nd) in I; unfold member in M; congruence).
      destruct j as [| | | | |l|]; try (split; [intros _ v I l0 c t E; rewrite (Only v I) in E; discriminate E|reflexivity]).
      destruct (mapM (check_context W) l) as [l'|] eqn:Ml; [|discriminate E3]. rewrite (contexts_nil l l' Ml). split.
      + intros X v I l0 c t E Hc Hm. rewrite (Only v I) in E. injection E as <-. exact (X c t Hc Hm).
      + intros X c t Hc Hm. exact (X _ (dget_Some_In _ _ _ M) l c t eq_refl Hc Hm).
    - split; [|reflexivity]. intros _ v I. apply (In_dget d _ v Nd) in I. unfold member in M. congruence. }
  rewrite Qc. apply and_iff_compat_r.
  unfold attr_from in Hdl. cbn [dialect_field fd_conv] in Hdl. change (fd_name (dialect_field W)) with (lit "dialect") in Hdl. change (fd_default (dialect_field W)) with JNull in Hdl.
  assert (Nl : (forall u, member d (lit "dialect") <> Some (JStr u)) -> linked_dialect_in_order W d) by (intros X u E; elim (X u E)).
  unfold linked_dialect_in_order. destruct (member d (lit "dialect")) as [j|] eqn:M; cbn [getdef] in Hdl.
  2:{ apply Ok_inj in Hdl. subst dl. split; [intros _ u E; discriminate E|reflexivity]. }
  destruct j as [|b|z|m|u|l|kvs].
  2-4,6-7: destruct (new_dialect W _) as [a|]; [|discriminate Hdl]; cbn [bind] in Hdl; apply Ok_inj in Hdl; subst dl; (split; [intros _ u E; discriminate E|reflexivity]).
  - apply Ok_inj in Hdl. subst dl. split; [intros _ u E; discriminate E|reflexivity].
  - apply Ok_inj in Hdl. subst dl. destruct (w_fetch_dialect W u at_) as [j|] eqn:Fe; [|discriminate E1]. cbn [bind] in E1.
    destruct (new_dialect W j) as [a|] eqn:Na; [|discriminate E1]. rewrite (dialect_nil W Utf8 j a (dialect_wf _ _ _ Fe) Na). split.
    + intros X u' E. injection E as <-. exists at_, j. split; [exact (proj2 At)|]. auto.
    + intros X. destruct (X u eq_refl) as (at' & j' & A' & F' & O'). rewrite (dialect_at u at' at_) in F'; [congruence|]. intros k v Hk. rewrite (A' k v Hk). symmetry. apply (proj2 At k v Hk).
Qed.

Theorem table_nil d o : wf_json (JObj d) -> fromvalue W (Table_class W) (JObj d) = Ok o -> (table_warns W (JObj d) = [] <-> table_in_order W d).
Proof.
  intros Wf H. destruct (fromvalue_quiet W (Table_class W) (tablelike_table W) (tablelike_post_warns W) d o Wf (table_names W) H) as (common & at_ & vals & F & P & At & Q).
  unfold table_warns. rewrite Q. clear Q. unfold table_in_order.
  rewrite <- (object_rule W (Table_class W) (fun k => In k (lit "suppressOutput" :: tablelike_keys)) (tablelike_rule W) d).
  2:{ intros k. change (field_names (Table_class W)) with (tablelike_keys ++ [lit "suppressOutput"]). rewrite in_app_iff. cbn [In]. tauto. }
  rewrite tablelike_rules. cbn [cl_fields Table_class] in *. apply F2_app_inv in F. destruct F as (tv & sv & -> & F & Fs).
  rewrite quiet_app, (tablelike_quiet _ d tv Wf) by (first [exact F|reflexivity]).
  pose proof F as F'. unfold tablelike_fields in F'. apply F2_app_inv in F'. destruct F' as (dv & cv & -> & Fd & Fc).
  assert (Ld : length dv = 11) by (symmetry; exact (Forall2_length _ _ _ Fd)).
  inversion Fc as [|? mdl ? rest Hdl Fc1]; subst. rewrite <- app_assoc in *. cbn [app] in *.
  assert (Po : exists o', tablelike_post W (MO None common at_ (dv ++ mdl :: rest ++ sv)) = Ok o') by (revert P; cbn [cl_post Table_class]; destruct (tablelike_post W (MO None common at_ (dv ++ mdl :: rest ++ sv))) as [o'|]; [eauto|discriminate]).
  destruct Po as [o' Po].
  rewrite (post_nil d common at_ dv mdl (rest ++ sv) o' Wf At Ld Hdl Po).
  assert (X : attrs_quiet (B := B) [plain (lit "suppressOutput") (JBool false) (fun j => j)] (tablelike_table W) d) by (intros f [<-|[]]; reflexivity).
  tauto.
Qed.
Lemma tables_nil v ts : wf_json v -> fd_conv (tables_field W) v = Ok ts ->
  (tables_warns W v = [] <-> v = JStr [] \/ v = JObj [] \/ exists l, v = JList l /\ forall x, In x l -> exists d, x = JObj d /\ table_in_order W d).
Proof.
  intros Wf H. cbn [tables_field fd_conv] in H. destruct v as [|b|z|m|s|l|kvs]; try discriminate H; cbn [tables_warns].
  - rewrite map_nil_iff. split; [intros ->; auto|]. intros [E|[E|(l & E & _)]]; congruence.
  - destruct (mapM _ _) as [os|] eqn:M in H; [|discriminate H]. apply mapM_Forall2 in M. rewrite flat_map_nil.
    assert (G : forall d, In (JObj d) l -> exists o, fromvalue W (Table_class W) (JObj d) = Ok o).
    { intros d I. assert (I' : In d (flat_map (fun x => match x with JObj d => [d] | _ => [] end) l)) by (apply in_flat_map; exists (JObj d); split; [exact I|left; reflexivity]).
      destruct (In_nth_error _ _ I') as [i Hi]. destruct (nth_error_F2 _ _ _ i _ M Hi) as (r & _ & Hr). eauto. }
    split.
    + intros X. right. right. exists l. split; [reflexivity|]. intros x I. pose proof (X x I) as Xx. destruct x as [| | | | | |d]; try discriminate Xx.
      exists d. split; [reflexivity|]. destruct (G d I) as [o Ho]. apply (table_nil d o); [exact (proj1 (wf_list l) Wf _ I)|exact Ho|exact Xx].
    + intros [E|[E|(l' & E & X)]]; try discriminate E. injection E as <-. intros x I. destruct (X x I) as (d & -> & O). destruct (G d I) as [o Ho].
      apply (table_nil d o); [exact (proj1 (wf_list l) Wf _ I)|exact Ho|exact O].
  - rewrite map_nil_iff. split; [intros ->; auto|]. intros [E|[E|(l & E & _)]]; congruence.
Qed.
Theorem group_nil d o : wf_json (JObj d) -> fromvalue W (TableGroup_class W) (JObj d) = Ok o -> (group_warns W (JObj d) = [] <-> group_in_order W d).
Proof.
  intros Wf H. destruct (fromvalue_quiet W (TableGroup_class W) (group_table W) (tablelike_post_warns W) d o Wf (group_names W) H) as (common & at_ & vals & F & P & At & Q).
  unfold group_warns. rewrite Q. clear Q. unfold group_in_order.
  rewrite <- (object_rule W (TableGroup_class W) (fun k => In k (lit "tables" :: tablelike_keys)) (group_rule W) d).
  2:{ intros k. change (field_names (TableGroup_class W)) with (tablelike_keys ++ [lit "tables"]). rewrite in_app_iff. cbn [In]. tauto. }
  cbn [cl_fields TableGroup_class] in *. apply F2_app_inv in F. destruct F as (tv & sv & -> & F & Fs).
  rewrite quiet_app, (tablelike_quiet _ d tv Wf) by (first [exact F|intros f Hf; unfold tablelike_fields in Hf; cbn [description_fields app In] in Hf; repeat (destruct Hf as [<-|Hf]; [reflexivity|]); destruct Hf]).
  pose proof F as F'. unfold tablelike_fields in F'. apply F2_app_inv in F'. destruct F' as (dv & cv & -> & Fd & Fc).
  assert (Ld : length dv = 11) by (symmetry; exact (Forall2_length _ _ _ Fd)).
  inversion Fc as [|? mdl ? rest Hdl Fc1]; subst. rewrite <- app_assoc in *. cbn [app] in *.
  rewrite (post_nil d common at_ dv mdl (rest ++ sv) o Wf At Ld Hdl P).
  assert (X : attrs_quiet [tables_field W] (group_table W) d <->
    forall v, In (lit "tables", v) d -> v = JStr [] \/ v = JObj [] \/ exists l, v = JList l /\ forall x, In x l -> exists d, x = JObj d /\ table_in_order W d).
  { rewrite quiet_Forall, Forall_cons_iff. pose proof (proj1 (wf_obj d) Wf) as [Nd Wfm]. inversion Fs as [|? ts ? ? Hts _]; subst.
    assert (Y : tables_warns W (getdef (member d (lit "tables")) (JList [])) = [] <->
      forall v, In (lit "tables", v) d -> v = JStr [] \/ v = JObj [] \/ exists l, v = JList l /\ forall x, In x l -> exists d, x = JObj d /\ table_in_order W d).
    { apply attr_q; [exact Nd|reflexivity|]. intros v I. apply (tables_nil v ts (Wfm _ _ I)). unfold attr_from in Hts. change (fd_name (tables_field W)) with (lit "tables") in Hts. unfold member in Hts. rewrite (In_dget d _ v Nd I) in Hts. exact Hts. }
    split; [intros [Z _]; exact (proj1 Y Z)|]. intros Z. split; [exact (proj2 Y Z)|constructor]. }
  assert (R : (forall k v, In (k, v) d -> group_rule W k v) <-> (tablelike_attrs d /\ context_ok d) /\
    forall v, In (lit "tables", v) d -> v = JStr [] \/ v = JObj [] \/ exists l, v = JList l /\ forall x, In x l -> exists d, x = JObj d /\ table_in_order W d).
  { rewrite <- tablelike_rules. split.
    - intros Z. split; [intros k v I; exact (gr_tablelike _ _ _ (Z k v I))|intros v I; exact (gr_tables _ _ _ (Z _ v I) eq_refl)].
    - intros [Z1 Z2] k v I. split; [exact (Z1 k v I)|intros ->; exact (Z2 v I)]. }
  rewrite X, R. tauto.
Qed.
End Tables.
