(** Datatypes from JSON. *)
From Verif Require Import PyStr Dsv Json Dec Dialects NatLang Datatype DatatypeSpec DatatypeProofs Meta MetaSpec MetaProofs MetaProofs2 MetaProofs3 DsvProofs4
  Column Files Descr DescrSpec DescrProofs DescrProofs2 DescrProofs3 DescrProofs4 DescrProofs5 Load LoadSpec LoadProofs LoadProofs2.
Local Open Scope nat_scope.
Section Types.
Context {B : Type} (W : world B).
Lemma names_datatype : names_ok (Datatype_class W).
Proof. split; vm_compute; reflexivity. Qed.
(** the object with a base *)
Definition based (d : object) : object := if has (lit "base") d then d else d ++ [(lit "base", JStr (lit "string"))].
Lemma has_member k (d : object) : has k d = false -> dget str_eqb d k = None.
Proof.
  intros H. apply NotIn_dget. intros I. apply in_map_iff in I. destruct I as ([k' v] & E & I). cbn [fst] in E. subst k'.
  assert (X : has k d = true) by (apply existsb_exists; exists (k, v); split; [exact I|apply str_eqb_refl]). congruence.
Qed.
Lemma based_member d k : k <> lit "base" -> member (based d) k = member d k.
Proof.
  intros Hk. unfold based, member. destruct (has (lit "base") d); [reflexivity|]. rewrite (dget_app str_eqb). destruct (dget str_eqb d k); [reflexivity|].
  cbn [dget]. destruct (str_eqb_spec k (lit "base")); [contradiction|reflexivity].
Qed.
Lemma based_base d : member (based d) (lit "base") = match member d (lit "base") with Some j => Some j | None => Some (JStr (lit "string")) end.
Proof.
  unfold based, member. destruct (has (lit "base") d) eqn:H.
  - destruct (dget str_eqb d (lit "base")) eqn:E; [reflexivity|]. apply existsb_exists in H. destruct H as ([k v] & I & E2). unfold key_is in E2. cbn [fst] in E2. apply str_eqb_eq in E2. try subst k.
    apply dget_None_In in E. elim E. rewrite <- ?E2, ?E2. apply (in_map fst) in I. exact I.
  - rewrite (dget_app str_eqb), (has_member _ _ H). reflexivity.
Qed.
Lemma datatype_members j o : wf_json j -> datatype_fromvalue W j = Ok o ->
  exists common at_ vals, Forall2 (attr_from (based (type_object j))) (datatype_fields W) vals /\ datatype_post W (MO None common at_ vals) = Ok o.
Proof.
  intros Wf H. destruct (dt_fromvalue W j o Wf H) as (d0 & Wf0 & _ & F). 
  assert (E : fromvalue W (Datatype_class W) (JObj (based (type_object j))) = Ok o /\ wf_json (JObj (based (type_object j)))).
  { destruct j as [| | | |s| |d]; try discriminate H.
    - cbn [type_object]. change (based [(lit "base", JStr s)]) with [(lit "base", JStr s)]. rewrite dt_of_str. split; [exact H|].
      apply wf_obj. split; [repeat constructor; intros []|]. intros k v [E|[]]. injection E as _ <-. exact I.
    - cbn [type_object]. split; [exact H|]. unfold based. destruct (has (lit "base") d) eqn:Hb; [exact Wf|].
      apply wf_obj in Wf. destruct Wf as [N A]. apply wf_obj. split.
      + rewrite map_app. apply NoDup_app_intro; [exact N|repeat constructor; intros []|].
        intros x H1 [<-|[]]. apply has_member in Hb. apply dget_None_In in Hb. exact (Hb H1).
      + intros k v I. apply in_app_iff in I. destruct I as [I|[I|[]]]; [exact (A k v I)|]. injection I as _ <-. exact Logic.I. }
  destruct E as [E Wb]. destruct (fromvalue_members W (Datatype_class W) _ _ Wb names_datatype E) as (common & at_ & vals & Fv & P & _). exists common, at_, vals. split; [exact Fv|exact P].
Qed.
Lemma base_from d v : attr_from (based d) base_field v -> v = @MJ B JNull \/ v = MJ (JStr (type_name d)).
Proof.
  unfold attr_from. change (fd_name base_field) with (lit "base"). rewrite based_base. cbn [getdef fd_conv base_field]. unfold type_name.
  destruct (member d (lit "base")) as [j|].
  - cbn [getdef]. unfold converter. destruct j as [|b|z|f|s|l|kvs]; cbn [conv_item isinst andb negb]; intros H; try (apply Ok_inj in H; subst v; auto; fail); try discriminate H.
    cbv zeta in H. assert (E : in_datatypes (JStr s) = str_mem s (map fst DATATYPES)).
    { unfold in_datatypes. destruct (dget str_eqb DATATYPES s) eqn:E.
      - symmetry. apply str_mem_In. apply dget_Some_In in E. apply (in_map fst) in E. exact E.
      - symmetry. apply not_true_iff_false. intros X. apply str_mem_In in X. apply dget_None_In in E. contradiction. }
    rewrite E in H. destruct (str_mem s (map fst DATATYPES)); cbn in H; apply Ok_inj in H; subst v; auto.
  - intros H. right. apply Ok_inj in H. subst v. reflexivity.
Qed.
Lemma len_from d k v : k <> lit "base" -> attr_from (based d) (int_field W k) v -> length_says W d k (opt_z v).
Proof.
  intros Hk. unfold attr_from, length_says. cbn [int_field fd_name fd_default fd_conv]. rewrite based_member by exact Hk.
  destruct (member d k) as [[|b|z|f|s|l|kvs]|]; cbn [getdef]; intros H; try (apply Ok_inj in H; subst v; reflexivity); try discriminate H.
  - destruct (w_py_int W (JFloat f)) as [z|] eqn:E; [|discriminate H]. cbn [bind] in H. apply Ok_inj in H. subst v. exists z. auto.
  - destruct (w_py_int W (JStr s)) as [z|] eqn:E; [|discriminate H]. cbn [bind] in H. apply Ok_inj in H. subst v. exists z. auto.
Qed.
Lemma raw_from d k v : k <> lit "base" -> attr_from (based d) (raw_field k) v -> v = @MJ B (getdef (member d k) JNull).
Proof.
  intros Hk. unfold attr_from. cbn [raw_field plain fd_name fd_default fd_conv]. rewrite based_member by exact Hk. intros H. apply Ok_inj in H. congruence.
Qed.
Lemma bound_from d k (ob : option B) : 
  match opt_raw (@MJ B (getdef (member d k) JNull)) with Some r => exists v, w_parse W (type_name d) (format_of d) r = Ok v /\ ob = Some v | None => ob = None end ->
  bound_says W d k ob.
Proof. unfold bound_says, opt_raw. destruct (member d k) as [[]|]; cbn [getdef]; auto. Qed.
Lemma bound_in_of (ob : option B) : bound_in (of_bound ob) = ob.
Proof. destruct ob; reflexivity. Qed.

Lemma decimal_names n c : In (n, c) DATATYPES -> (c = CDecimal <-> In n decimal_types).
Proof.
  assert (A : forallb (fun nc => Bool.eqb (dclass_eqb (snd nc) CDecimal) (str_mem (fst nc) decimal_types)) DATATYPES = true) by (vm_compute; reflexivity).
  intros H. rewrite forallb_forall in A. specialize (A _ H). cbn [fst snd] in A. apply Bool.eqb_prop in A. rewrite <- str_mem_In, <- A.
  destruct c; cbn; split; congruence.
Qed.
Lemma pattern_chars_spec c : char_mem c pattern_chars = true <-> pattern_char c.
Proof.
  unfold char_mem, pattern_char, pattern_chars. rewrite existsb_exists. split.
  - intros (x & I & E). apply N.eqb_eq in E. subst x. cbn in I. cbn. intuition auto.
  - intros H. exists c. split; [|apply N.eqb_refl]. cbn in H. cbn. intuition auto.
Qed.
Lemma derived_spec c n f pat : c = CDecimal -> derived W c n f = Ok pat -> forall p, pat = Some p <-> pattern_in f p \/ (pat = Some p /\ p = []).
Proof.
  intros -> H p. unfold derived in H. unfold pattern_in. destruct f as [|b|z|r|s|l|kvs]; cbn [truthy] in H.
  - apply Ok_inj in H. subst pat. split; [discriminate|]. intros [[[X _]|(k & X & _)]|[X _]]; discriminate X.
  - destruct b; [discriminate H|]. apply Ok_inj in H. subst pat. split; [discriminate|]. intros [[[X _]|(k & X & _)]|[X _]]; discriminate X.
  - destruct (negb _); [discriminate H|]. apply Ok_inj in H. subst pat. split; [discriminate|]. intros [[[X _]|(k & X & _)]|[X _]]; discriminate X.
  - destruct (truthy (JFloat r)) eqn:T; cbn [truthy] in T; rewrite ?T in H; [discriminate H|]. apply Ok_inj in H. subst pat. split; [discriminate|]. intros [[[X _]|(k & X & _)]|[X _]]; discriminate X.
  - destruct s as [|x s]; cbn in H; apply Ok_inj in H; subst pat.
    + split; [discriminate|]. intros [[[X Y]|(k & X & _)]|[X _]]; congruence.
    + split; [intros E; injection E as <-; left; left; split; [reflexivity|discriminate]|]. intros [[[X Y]|(k & X & _)]|[X _]]; congruence.
  - destruct l; [|discriminate H]. apply Ok_inj in H. subst pat. split; [discriminate|]. intros [[[X _]|(k & X & _)]|[X _]]; discriminate X.
  - destruct kvs as [|kv kvs]; [apply Ok_inj in H; subst pat; split; [discriminate|]; intros [[[X _]|(k & X & Y)]|[X _]]; try discriminate X; injection X as <-; discriminate Y|].
    cbn [negb] in H. destruct (dget str_eqb (kv :: kvs) (lit "pattern")) as [[| | | |s| |]|] eqn:E; try discriminate H; apply Ok_inj in H; subst pat.
    + split; [intros X; injection X as <-; left; right; exists (kv :: kvs); split; [reflexivity|exact E]|].
      intros [[[X _]|(k & X & Y)]|[X _]]; [discriminate X| |exact X]. injection X as <-. unfold member in Y. congruence.
    + split; [discriminate|]. intros [[[X _]|(k & X & Y)]|[X _]]; [discriminate X| |discriminate X]. injection X as <-. unfold member in Y. congruence.
Qed.

Theorem datatype_loaded j o : wf_json j -> datatype_fromvalue W j = Ok o -> datatype_says W j (load_dtype W o).
Proof.
  intros Wf H. destruct (datatype_members j o Wf H) as (common & at_ & vals & F & P). clear H. set (d := type_object j) in *.
  cbn [datatype_fields bound_names map app] in F.
  apply F2_cons in F. destruct F as (v0 & t & -> & F0 & F). apply F2_cons in F. destruct F as (v1 & t1 & -> & F1 & F).
  apply F2_cons in F. destruct F as (v2 & t2 & -> & F2 & F). apply F2_cons in F. destruct F as (v3 & t3 & -> & F3 & F).
  apply F2_cons in F. destruct F as (v4 & t4 & -> & F4 & F). apply F2_cons in F. destruct F as (v5 & t5 & -> & F5 & F).
  apply F2_cons in F. destruct F as (v6 & t6 & -> & F6 & F). apply F2_cons in F. destruct F as (v7 & t7 & -> & F7 & F).
  apply F2_cons in F. destruct F as (v8 & t8 & -> & F8 & F). apply F2_cons in F. destruct F as (v9 & t9 & -> & F9 & F).
  apply F2_cons in F. destruct F as (v10 & t10 & -> & F10 & F). apply F2_nil in F. subst t10.
  apply raw_from in F1, F5, F6, F7, F8, F9, F10; try discriminate. subst v1 v5 v6 v7 v8 v9 v10.
  apply len_from in F2, F3, F4; try discriminate.
  unfold datatype_post in P. cbn [o_vals o_at o_num o_common] in P.
  destruct (base_from _ _ F0) as [-> | ->]; [discriminate P|].
  assert (Ef : getdef (member d (lit "format")) JNull = format_of d) by (unfold format_of; destruct (member d (lit "format")); reflexivity).
  rewrite Ef in P. set (n := type_name d) in *. 
  destruct (dget str_eqb DATATYPES n) as [c|] eqn:Ec; [|discriminate P].
  match type of P with bind ?x _ = _ => destruct x as [[FF keep]|] eqn:PI; [|discriminate P] end. cbn [bind] in P. apply Ok_inj in P. subst o.
  destruct (post_init_spec _ _ _ _ _ _ _ _ PI) as (_ & L1 & L2 & L3 & Bs & _).
  destruct (post_init_lengths _ _ _ _ _ _ _ _ PI) as (_ & _ & _ & pat & Dp & Kp).
  pose proof (dget_Some_In _ _ _ Ec) as InD.
  destruct (classes_documented n c InD) as [Mm _].
  assert (Em : str_mem n bounded_types = minmax c).
  { destruct (minmax c) eqn:E; [apply str_mem_In, Mm; reflexivity|]. apply not_true_iff_false. rewrite str_mem_In, <- Mm. congruence. }
  set (f' := if keep then format_of d else JNull).
  exists f', FF. unfold load_dtype. cbn [o_vals Column.dt_base dt_reads dt_fmt]. fold n. rewrite Ec. cbn [getdef]. rewrite !bound_in_of.
  cbn [fc_length fc_minLength fc_maxLength fc_minimum fc_maximum fc_minInclusive fc_maxInclusive fc_minExclusive fc_maxExclusive] in L1, L2, L3, Bs.
  replace {| fc_length := _ |} with FF by (destruct FF; cbn in *; congruence).
  split; [reflexivity|]. split; [|split; [|split; [|split]]].
  - unfold f'. rewrite Kp. destruct (dclass_eqb c CDecimal) eqn:Edc; cbn [andb negb].
    + assert (c = CDecimal) by (destruct c; try discriminate Edc; reflexivity). pose proof (proj1 (decimal_names _ _ InD) H) as Dn.
      pose proof (derived_spec c n (format_of d) pat H Dp) as DS.
      destruct pat as [s|]; cbn [negb].
      * destruct (forallb _ s) eqn:Fb; cbn [negb].
        -- apply fu_kept. intros p x _ Hp Hx. apply pattern_chars_spec. assert (E : Some s = Some p) by (apply DS; left; exact Hp). injection E as ->.
           apply (proj1 (forallb_forall _ _) Fb). exact Hx.
        -- assert (exists x, In x s /\ char_mem x pattern_chars = false) as (x & Hx & Hc).
           { clear -Fb. induction s as [|y s IH]; [discriminate Fb|]. cbn [forallb] in Fb. destruct (char_mem y pattern_chars) eqn:E; [|exists y; split; [left; reflexivity|exact E]].
             destruct (IH Fb) as (x & I & X). exists x. split; [right; exact I|exact X]. }
           apply (fu_ignored n (format_of d) s x Dn); [|exact Hx|intros Q; apply pattern_chars_spec in Q; congruence].
           destruct (proj1 (DS s) eq_refl) as [Q|[_ ->]]; [exact Q|destruct Hx].
      * apply fu_kept. intros p x _ Hp _. assert (E : None = Some p) by (apply DS; left; exact Hp). discriminate E.
    + apply fu_kept. intros p x Dn. apply (decimal_names _ _ InD) in Dn. subst c. discriminate Edc.
  - constructor; [rewrite L1; exact F2|rewrite L2; exact F3|rewrite L3; exact F4|..]; apply bound_from; fold n.
    + apply (Bs (fc_minimum, fc_minimum)). cbn; tauto.
    + apply (Bs (fc_maximum, fc_maximum)). cbn; tauto.
    + apply (Bs (fc_minInclusive, fc_minInclusive)). cbn; tauto.
    + apply (Bs (fc_maxInclusive, fc_maxInclusive)). cbn; tauto.
    + apply (Bs (fc_minExclusive, fc_minExclusive)). cbn; tauto.
    + apply (Bs (fc_maxExclusive, fc_maxExclusive)). cbn; tauto.
  - intros s v Pv Cm. change (w_parse W n f' (JStr s) = Ok v) in Pv. unfold dt_read. fold f'. rewrite Pv. cbn [bind]. change (type_name (type_object j)) with n. rewrite Em. apply validate_spec. intros X. apply Cm, Mm, X.
  - intros s e Pe. change (w_parse W n f' (JStr s) = Err e) in Pe. unfold dt_read. fold f'. rewrite Pe. reflexivity.
  - split; reflexivity.
Qed.
End Types.
