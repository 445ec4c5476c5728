(** Which values give no warning: lists of values, partition_properties, attributes. *)
From Verif Require Import PyStr Dsv Json Dialects NatLang Datatype Meta MetaSpec MetaProofs MetaProofs2 DsvProofs4
  Column Descr DescrProofs Load LoadSpec LoadProofs Warn WarnSpec.

Lemma flat_map_nil {A X} (f : A -> list X) l : flat_map f l = [] <-> forall x, In x l -> f x = [].
Proof.
  induction l as [|a l IH]; cbn [flat_map]; [split; [intros _ x []|reflexivity]|]. split.
  - intros H. apply app_eq_nil in H. destruct H as [H1 H2]. intros x [<-|Hx]; [exact H1|apply IH; assumption].
  - intros H. rewrite (H a) by (left; reflexivity). apply IH. intros x Hx. apply H. right; exact Hx.
Qed.
Lemma app_nil_iff {A} (a b : list A) : a ++ b = [] <-> a = [] /\ b = [].
Proof. split; [apply app_eq_nil|intros [-> ->]; reflexivity]. Qed.
Lemma map_nil_iff {A X} (f : A -> X) l : map f l = [] <-> l = [].
Proof. destruct l; split; (reflexivity || discriminate). Qed.

(** ** utils.converter *)
Lemma item_nil t cond (P : json -> Prop) : (forall l, ~ P (JList l)) -> (forall v, (forall l, v <> JList l) -> isinst t v && cond v = true <-> P v) ->
  forall v, item_warns t cond v = [] <-> nested P v.
Proof.
  intros NP HP v. induction v as [|b|z|m|s|l IH|kvs _] using json_ind'.
  6:{ cbn [item_warns]. rewrite flat_map_nil. rewrite Forall_forall in IH. split.
      - intros H. apply ne_list. intros x Hx. apply IH; [exact Hx|apply H; exact Hx].
      - intros H x Hx. apply IH; [exact Hx|]. inversion H as [j Hj|l' Hl]; subst; [destruct (NP _ Hj)|apply Hl; exact Hx]. }
  all: cbn [item_warns];
    match goal with |- context [isinst ?t0 ?v && ?c0 ?v] =>
      let E := fresh "E" in pose proof (HP v) as E; specialize (E ltac:(discriminate));
      destruct (isinst t0 v && c0 v);
        [split; [intros _; apply ne_one, E; reflexivity|reflexivity]
        |split; [discriminate|intros H; inversion H as [j Hj|]; subst; apply E in Hj; discriminate Hj]] end.
Qed.
Lemma conv_nil t an cond (P : json -> Prop) : t <> TList -> (forall l, ~ P (JList l)) -> ~ P JNull -> (forall v, (forall l, v <> JList l) -> isinst t v && cond v = true <-> P v) ->
  forall v, conv_warns t an cond v = [] <-> (an = true /\ v = JNull) \/ nested P v.
Proof.
  intros Nt NP N0 HP v. pose proof (item_nil t cond P NP HP v) as E.
  assert (Z : nested P JNull -> False) by (intros H; inversion H; contradiction).
  destruct t; try contradiction; destruct v; cbn [conv_warns]; try (rewrite E; split; [tauto|intros [[_ X]|X]; [discriminate X|exact X]]);
    destruct an; split; try discriminate; try tauto; intros [[X _]|X]; try discriminate X; destruct (Z X).
Qed.
Lemma is_word_in ws v : str_in ws v = true <-> is_word ws v.
Proof. unfold str_in, is_word. destruct v; try (split; [discriminate|intros (s0 & E & _); discriminate E]). rewrite str_mem_In. split; [eauto|intros (s0 & E & H); injection E as ->; exact H]. Qed.
Ltac nolist := let x := fresh in let E := fresh in intros x E; repeat destruct E as [? E]; (discriminate E || (destruct E; discriminate)).
Lemma str_nil an v : conv_warns TStr an no_cond v = [] <-> (an = true /\ v = JNull) \/ nested a_string v.
Proof.
  apply conv_nil; [discriminate|intros l (s & E); discriminate E|intros (s & E); discriminate E|]. intros u _. unfold no_cond. rewrite andb_true_r. unfold a_string.
  destruct u; cbn [isinst]; split; try discriminate; try (intros (s0 & E); discriminate E); eauto.
Qed.
Lemma bool_nil an v : conv_warns TBool an no_cond v = [] <-> (an = true /\ v = JNull) \/ nested is_bool v.
Proof.
  apply conv_nil; [discriminate|intros l (s & E); discriminate E|intros (s & E); discriminate E|]. intros u _. unfold no_cond. rewrite andb_true_r. unfold is_bool.
  destruct u; cbn [isinst]; split; try discriminate; try (intros (s0 & E); discriminate E); eauto.
Qed.
Lemma count_nil v : conv_warns TInt false nonneg v = [] <-> nested is_count v.
Proof.
  rewrite (conv_nil TInt false nonneg is_count); [split; [intros [[X _]|X]; [discriminate X|exact X]|tauto]|discriminate|intros l (s & E & _); discriminate E|intros (s & E & _); discriminate E|].
  intros u _. unfold is_count. destruct u; cbn [isinst nonneg andb]; split; try discriminate; try (intros (s0 & E & _); discriminate E).
  - intros H. apply Z.leb_le in H. eauto.
  - intros (s0 & E & H). injection E as ->. apply Z.leb_le. exact H.
Qed.
Lemma word_nil an ws v : conv_warns TStr an (str_in ws) v = [] <-> (an = true /\ v = JNull) \/ nested (is_word ws) v.
Proof.
  apply conv_nil; [discriminate|intros l (s & E & _); discriminate E|intros (s & E & _); discriminate E|]. intros u _. rewrite andb_true_iff, is_word_in. split; [tauto|].
  intros H. split; [|exact H]. destruct H as (s & -> & _). reflexivity.
Qed.
Lemma trim_nil v : conv_warns TStrOrBool false no_cond v = [] <-> nested (fun j => a_string j \/ is_bool j) v.
Proof.
  rewrite (conv_nil TStrOrBool false no_cond (fun j => a_string j \/ is_bool j)); [split; [intros [[X _]|X]; [discriminate X|exact X]|tauto]|discriminate|intros l [(s & E)|(s & E)]; discriminate E|intros [(s & E)|(s & E)]; discriminate E|].
  intros u _. unfold no_cond. rewrite andb_true_r. unfold a_string, is_bool. destruct u; cbn [isinst]; split; try discriminate; try (intros [(s0 & E)|(s0 & E)]; discriminate E); eauto.
Qed.

(** ** partition_properties *)
Definition not_at (k : pystr) : Prop := forall r, k <> lit "@" ++ r.
Section Part.
Variable tag_ok : pystr -> bool.
Variables (fields : list pystr) (tn : pystr) (strict : bool).
Definition item_quiet (k : pystr) (v : json) : Prop :=
  ((exists r, k = lit "@" ++ r) \/ In 58 k \/ (strict = true -> In k fields)) /\ (k = lit "@id" -> a_string v) /\ (In 58 k -> not_at k -> no_defect tag_ok v).
Lemma step_quiet p ws k v a : wf_json v -> partition_step tag_ok fields tn strict (p, ws) (k, v) = Ok a -> (snd a = [] <-> ws = [] /\ item_quiet k v).
Proof.
  intros Wf. unfold partition_step, item_quiet. destruct (startswith (lit "@") k) eqn:S.
  - apply MetaProofs.startswith_iff in S. assert (C : not_at k -> False) by (intros N; destruct S as (r & E); exact (N r E)).
    destruct (str_eqb_spec k (lit "@id")) as [->|Nk].
    + change (str_eqb (lit "@id") (lit "@type")) with false. cbn [andb]. unfold valid_id_property, a_string. destruct v as [| | | |s| |]; cbn [bind fst snd];
        try (intros E; injection E as <-; cbn [snd]; split; [intros H; apply app_eq_nil in H; destruct H; discriminate|intros (_ & _ & H & _); destruct (H eq_refl) as (s & E); discriminate E]).
      destruct (startswith (lit "_") s); [discriminate|]. cbn [bind fst snd]. intros E; injection E as <-. cbn [snd]. rewrite app_nil_r. split; [intros ->; split; [reflexivity|]; split; [tauto|]; split; [eauto|tauto]|tauto].
    + cbn [bind fst snd]. destruct (str_eqb k (lit "@type") && negb (py_eq v (JStr tn))); [discriminate|]. intros E; injection E as <-. cbn [snd]. rewrite app_nil_r. split; [intros ->; split; [reflexivity|]; split; [tauto|]; split; [contradiction|tauto]|tauto].
  - assert (NA : not_at k). { intros r E. assert (X : startswith (lit "@") k = true) by (apply MetaProofs.startswith_iff; eauto). congruence. }
    assert (Nid : k <> lit "@id") by (intros ->; discriminate S).
    destruct (char_mem 58 k) eqn:C.
    + apply char_mem_In in C. destruct (valid_common_property tag_ok v) as [[w wv]|] eqn:E1; [|discriminate]. cbn [bind fst snd]. intros E; injection E as <-. cbn [snd].
      rewrite app_nil_iff, (proj2 (vcp_sound tag_ok v Wf _ _ E1)). split; [intros [-> H]; tauto|]. intros (-> & _ & _ & H). split; [reflexivity|exact (H C NA)].
    + assert (C' : ~ In 58 k) by (intros H; apply char_mem_In in H; congruence). destruct strict; cbn [andb].
      * destruct (str_mem k fields) eqn:M; cbn [negb]; intros E; injection E as <-; cbn [snd].
        -- apply str_mem_In in M. split; [intros ->; split; [reflexivity|]; split; [tauto|]; split; [contradiction|tauto]|tauto].
        -- apply str_mem_false in M. split; [intros H; apply app_eq_nil in H; destruct H; discriminate|]. intros (_ & H & _). destruct H as [(r & H)|[H|H]]; [destruct (NA r H)|contradiction|destruct (M (H eq_refl))].
      * intros E; injection E as <-; cbn [snd]. split; [intros ->; split; [reflexivity|]; split; [right; right; discriminate|]; split; [contradiction|tauto]|tauto].
Qed.
Lemma loop_quiet kvs : (forall k v, In (k, v) kvs -> wf_json v) -> forall a b, partition_loop tag_ok fields tn strict a kvs = Ok b ->
  (snd b = [] <-> snd a = [] /\ forall k v, In (k, v) kvs -> item_quiet k v).
Proof.
  induction kvs as [|[k v] kvs IH]; intros Wf a b; cbn [partition_loop].
  - intros H. apply Ok_inj in H. subst b. split; [intros H; split; [exact H|intros k v []]|tauto].
  - destruct (partition_step tag_ok fields tn strict a (k, v)) as [a'|] eqn:E; [|discriminate]. cbn [bind]. intros H. rewrite (IH (fun k' v' H' => Wf k' v' (or_intror H')) _ _ H).
    destruct a as [p ws]. rewrite (step_quiet p ws k v a' (Wf k v (or_introl eq_refl)) E). cbn [snd]. split.
    + intros ((-> & Q) & A). split; [reflexivity|]. intros k' v' [X|X]; [injection X as -> ->; exact Q|exact (A k' v' X)].
    + intros (-> & A). split; [split; [reflexivity|apply A; left; reflexivity]|]. intros k' v' X. apply A. right; exact X.
Qed.
Lemma parts_nil_gen d o ws : wf_json (JObj d) -> partition_properties tag_ok fields tn strict (JObj d) = Ok (o, ws) ->
  (ws = [] <-> forall k v, In (k, v) d -> item_quiet k v).
Proof.
  intros Wf. apply wf_obj in Wf. destruct Wf as [_ Wf]. rewrite (partition_obj tag_ok fields tn strict).
  destruct (partition_loop tag_ok fields tn strict _ d) as [[p ws']|] eqn:E; [|discriminate]. cbn [bind fst snd]. destruct (str_mem _ _ || str_mem _ _); [discriminate|]. intros H. injection H as _ <-.
  pose proof (loop_quiet d Wf _ _ E) as L. cbn [snd] in L. rewrite L. split; [tauto|]. intros H. split; [reflexivity|exact H].
Qed.
End Part.

Section Attrs.
Context {B : Type} (W : world B).
Lemma parts_warns_nil fields tn strict d r : wf_json (JObj d) -> partition_properties (w_tag_ok W) fields tn strict (JObj d) = Ok r ->
  (parts_warns W fields tn strict (JObj d) = [] <-> forall k v, In (k, v) d -> item_quiet (w_tag_ok W) fields strict k v).
Proof. intros Wf E. unfold parts_warns. rewrite E, map_nil_iff. destruct r as [o ws]. exact (parts_nil_gen (w_tag_ok W) fields tn strict d o ws Wf E). Qed.

(** the warnings of the attributes *)
Definition attrs_quiet (fs : list (field B)) (T : wtable) (d : object) : Prop :=
  forall f, In f fs -> getdef (dget str_eqb T (fd_name f)) (fun _ => []) (getdef (member d (fd_name f)) (fd_default f)) = [].
Definition keys_known (C : class B) (d : object) : Prop := forall k v, In (k, v) d -> item_quiet (w_tag_ok W) (field_names C) true k v.
Lemma fromvalue_quiet (C : class B) T post d o : wf_json (JObj d) -> names_ok C -> fromvalue W C (JObj d) = Ok o ->
  exists common at_ vals, Forall2 (attr_from d) (cl_fields C) vals /\ cl_post C (MO None common at_ vals) = Ok o /\ at_from d at_ /\
    (fromvalue_warns W C T post (JObj d) = [] <-> keys_known C d /\ attrs_quiet (cl_fields C) T d /\ post (MO None common at_ vals) = []).
Proof.
  intros Wf [Nm _] H. unfold fromvalue in H.
  destruct (partition_properties (w_tag_ok W) (all_names C) (cl_name C) true (JObj d)) as [[po ws]|] eqn:P; [|discriminate H].
  cbn [bind fst] in H. destruct po as [p|]; [|discriminate H].
  destruct (partition_sound (w_tag_ok W) (all_names C) (cl_name C) true d (Some p) ws Wf P) as (A & E & _).
  injection E as ->. apply new_object_inv in H. destruct H as (vals & Names & F & Post). eexists _, _, vals.
  assert (G : forall f, In f (cl_fields C) -> dget str_eqb (expected_attrs (all_names C) true d) (fd_name f) = member d (fd_name f)).
  { intros f Hf. unfold expected_attrs, with_fate, member. rewrite (dget_filter (fun k => if fate_eq_dec (fate_of (all_names C) true k) FAttr then true else false)); [reflexivity|].
    assert (Pl : plain_name (fd_name f)). { apply plain_nameb_ok. apply (proj1 (forallb_forall _ _) Nm). apply in_map. exact Hf. }
    rewrite (fate_field C); [destruct (fate_eq_dec FAttr FAttr); congruence| |exact Pl].
    unfold all_names, field_names. right. right. apply in_or_app. right. apply in_map. exact Hf. }
  cbn [p_attrs p_common p_at] in *. split; [|split; [exact Post|split; [apply at_from_expected; apply wf_obj in Wf; apply Wf|]]].
  - clear -F G. revert F G. generalize (cl_fields C). intros fs F. induction F as [|f v fs vs E F IH]; intros G; constructor.
    + unfold attr_from. rewrite <- G by (left; reflexivity). exact E.
    + apply IH. intros f' Hf. apply G. right; exact Hf.
  - unfold fromvalue_warns. rewrite app_nil_iff, (parts_warns_nil _ _ _ d _ Wf P). rewrite P. unfold new_warns. cbn [p_attrs p_common p_at]. rewrite app_nil_iff.
    rewrite (proj2 (mapM_Forall2 _ _ _) F).
    assert (K : (forall k v, In (k, v) d -> item_quiet (w_tag_ok W) (all_names C) true k v) <-> keys_known C d).
    { split; intros K k v I; destruct (K k v I) as (K1 & K2 & K3); (split; [|split; [exact K2|exact K3]]).
      - destruct K1 as [K1|[K1|K1]]; [left; exact K1|right; left; exact K1|]. destruct (in_dec N.eq_dec 58 k) as [X|X]; [right; left; exact X|].
        destruct (startswith (lit "@") k) eqn:S; [left; apply MetaProofs.startswith_iff in S; exact S|]. right. right. intros _. specialize (K1 eq_refl).
        assert (X2 : In (k, v) (expected_attrs (all_names C) true d)).
        { unfold expected_attrs. apply with_fate_In. split; [exact I|]. unfold fate_of. rewrite (at_eq k) in S. rewrite S. destruct (in_dec N.eq_dec 58 k); [contradiction|]. destruct (in_dec str_eq_dec k (all_names C)); [reflexivity|contradiction]. }
        rewrite forallb_forall in Names. apply Names in X2. apply str_mem_In in X2. exact X2.
      - destruct K1 as [K1|[K1|K1]]; [left; exact K1|right; left; exact K1|]. right. right. intros _. specialize (K1 eq_refl). unfold all_names. right. right. apply in_or_app. right. exact K1. }
    rewrite K. apply and_iff_compat_l. apply and_iff_compat_r. unfold attr_warns. rewrite flat_map_nil. unfold attrs_quiet. split; intros X f Hf; specialize (X f Hf); rewrite G in *; assumption.
Qed.
(** in terms of the specification *)
Lemma object_quiet (C : class B) (known : pystr -> Prop) (rule : pystr -> json -> Prop) (T : wtable) d : wf_json (JObj d) ->
  (forall k, In k (field_names C) <-> known k) ->
  (attrs_quiet (cl_fields C) T d <-> forall k v, In (k, v) d -> rule k v) ->
  (keys_known C d /\ attrs_quiet (cl_fields C) T d <-> object_in_order W known rule d).
Proof.
  intros Wf Kn Ar. rewrite Ar. unfold keys_known, item_quiet. split.
  - intros (K & R). split; [|intros v I; exact (proj1 (proj2 (K _ v I)) eq_refl)|intros k v I; exact (proj2 (proj2 (K _ v I)))|exact R].
    intros k v I. destruct (K k v I) as [[X|[X|X]] _]; [left; exact X|right; left; exact X|right; right; apply Kn; exact (X eq_refl)].
  - intros [O1 O2 O3 O4]. split; [|exact O4]. intros k v I. split; [|split; [intros ->; exact (O2 v I)|exact (O3 k v I)]].
    destruct (O1 k v I) as [X|[X|X]]; [left; exact X|right; left; exact X|right; right; intros _; apply Kn; exact X].
Qed.
End Attrs.
