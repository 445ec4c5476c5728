(** Warnings of inherited properties and columns. *)
From Verif Require Import PyStr Dsv Json Dialects NatLang Datatype Meta MetaSpec MetaProofs MetaProofs2 DsvProofs4
  Column Descr DescrProofs DescrProofs2 DescrProofs3 Load LoadSpec LoadProofs LoadProofs2 LoadProofs5 Warn WarnSpec WarnProofs WarnProofs2.

Section Inherited.
Context {B : Type} (W : world B).
Hypothesis Und : w_tag_ok W (lit "und") = true.
Notation lookup T n := (getdef (dget str_eqb T n) (fun _ : json => @nil lwarn)).

Lemma uri_nil v : uri_warns v = [] <-> null_or a_string v.
Proof. unfold uri_warns, null_or, a_string. destruct v; split; try discriminate; try reflexivity; eauto; intros [E|(s0 & E)]; discriminate E. Qed.
Lemma default_nil v : default_warns v = [] <-> a_string v.
Proof. unfold default_warns, a_string. destruct v; split; try discriminate; try reflexivity; eauto; intros (s0 & E); discriminate E. Qed.
Lemma strings_list_iff l : forallb is_str l = true <-> exists ss, l = map JStr ss.
Proof.
  rewrite forallb_forall. split.
  - intros H. exists (strings l). apply strs_map. apply forallb_forall. exact H.
  - intros (ss & ->) x I. apply in_map_iff in I. destruct I as (s & <- & _). reflexivity.
Qed.
Lemma null_nil v : null_warns v = [] <-> null_or a_string v \/ strings_list v.
Proof.
  unfold null_warns, null_or, a_string, strings_list. destruct v as [|b|z|m|s|l|kvs]; cbn [forallb is_str andb]; try (split; [discriminate|intros [[E|(s0 & E)]|(s0 & E)]; discriminate E]).
  - split; [auto|reflexivity].
  - split; [eauto|reflexivity].
  - pose proof (strings_list_iff l) as L. destruct (forallb is_str l).
    + split; [|reflexivity]. intros _. right. destruct (proj1 L eq_refl) as (ss & ->). eauto.
    + split; [discriminate|]. intros [[E|(s0 & E)]|(ss & E)]; try discriminate E. injection E as ->. assert (X : false = true) by (apply L; eauto). discriminate X.
Qed.
Lemma null_or_iff (P : json -> Prop) v : (true = true /\ v = JNull) \/ P v <-> null_or P v.
Proof. unfold null_or. tauto. Qed.
Lemma lang_nil v x : fd_conv (lang_field W) v = Ok x -> (lang_warns W v = [] <-> is_tag W v).
Proof.
  unfold lang_warns, is_tag. cbn [lang_field fd_conv]. destruct v as [|b|z|m|s|l|kvs]; try discriminate. intros _. destruct (w_tag_ok W s) eqn:E.
  - split; [eauto|reflexivity].
  - split; [discriminate|]. intros (s0 & X & T). injection X as <-. congruence.
Qed.

Definition same_lookups (T : wtable) : Prop := forall f, In f (description_fields W) -> dget str_eqb T (fd_name f) = dget str_eqb (description_table W) (fd_name f).
Lemma description_quiet T (d : object) vals : wf_json (JObj d) -> same_lookups T -> Forall2 (attr_from d) (description_fields W) vals ->
  (attrs_quiet (description_fields W) T d <-> forall k v, In (k, v) d -> inherited_rule W k v).
Proof.
  intros Wf Same F. apply wf_obj in Wf. destruct Wf as [Nd Wf].
  assert (E : attrs_quiet (description_fields W) T d <-> attrs_quiet (description_fields W) (description_table W) d).
  { unfold attrs_quiet. split; intros H f Hf; specialize (H f Hf); rewrite (Same f Hf) in *; exact H. }
  rewrite E, quiet_Forall. clear E Same.
  unfold description_fields in *.
  apply F2_cons in F. destruct F as (v0 & t & -> & F0 & F). apply F2_cons in F. destruct F as (v1 & t1 & -> & F1 & F).
  apply F2_cons in F. destruct F as (v2 & t2 & -> & F2 & F). apply F2_cons in F. destruct F as (v3 & t3 & -> & F3 & F). clear F t3.
  rewrite !Forall_cons_iff.
  assert (Att : forall n (w : json -> list lwarn) (R : json -> Prop) def, w def = [] -> (forall v, In (n, v) d -> (w v = [] <-> R v)) -> w (getdef (member d n) def) = [] <-> forall v, In (n, v) d -> R v).
  { intros n w R def D H. apply attr_q; assumption. }
  assert (Uri : forall n, uri_warns (getdef (member d n) JNull) = [] <-> forall v, In (n, v) d -> null_or a_string v) by (intros n; apply Att; [reflexivity|intros v _; apply uri_nil]).
  assert (Dt : datatype_warns W (getdef (member d (lit "datatype")) JNull) = [] <-> forall v, In (lit "datatype", v) d -> datatype_in_order W v).
  { apply Att; [reflexivity|]. intros v I. destruct (truthy v) eqn:Tv.
    - unfold attr_from in F1. cbn [datatype_field fd_name fd_default fd_conv] in F1. unfold member in F1. rewrite (In_dget d _ v Nd I) in F1. cbn [getdef] in F1. rewrite Tv in F1.
      destruct (datatype_fromvalue W v) as [o|] eqn:Eo; [|discriminate F1]. apply (datatype_nil W v o (Wf _ _ I) Tv Eo).
    - unfold datatype_warns, datatype_in_order. rewrite Tv. split; [discriminate|reflexivity]. }
  assert (Df : default_warns (getdef (member d (lit "default")) (JStr [])) = [] <-> forall v, In (lit "default", v) d -> a_string v) by (apply Att; [reflexivity|intros v _; apply default_nil]).
  assert (Lg : lang_warns W (getdef (member d (lit "lang")) (JStr (lit "und"))) = [] <-> forall v, In (lit "lang", v) d -> is_tag W v).
  { apply Att; [unfold lang_warns; rewrite Und; reflexivity|]. intros v I. apply (lang_nil v v3). unfold attr_from in F3. change (fd_name (lang_field W)) with (lit "lang") in F3. unfold member in F3. rewrite (In_dget d _ v Nd I) in F3. exact F3. }
  assert (Nu : null_warns (getdef (member d (lit "null")) (JList [JStr []])) = [] <-> forall v, In (lit "null", v) d -> null_or a_string v \/ strings_list v) by (apply Att; [reflexivity|intros v _; apply null_nil]).
  assert (Or : conv_warns TBool true no_cond (getdef (member d (lit "ordered")) JNull) = [] <-> forall v, In (lit "ordered", v) d -> null_or (nested is_bool) v) by (apply Att; [reflexivity|intros v _; rewrite bool_nil; apply null_or_iff]).
  assert (Se : conv_warns TStr true no_cond (getdef (member d (lit "separator")) JNull) = [] <-> forall v, In (lit "separator", v) d -> null_or (nested a_string) v) by (apply Att; [reflexivity|intros v _; rewrite str_nil; apply null_or_iff]).
  assert (Td : conv_warns TStr true (str_in directions) (getdef (member d (lit "textDirection")) JNull) = [] <-> forall v, In (lit "textDirection", v) d -> null_or (nested (is_word directions)) v) by (apply Att; [reflexivity|intros v _; rewrite word_nil; apply null_or_iff]).
  split.
  - intros (A0 & A1 & A2 & A3 & A4 & A5 & A6 & _ & A8 & A9 & A10 & _).
    pose proof (proj1 (Uri (lit "aboutUrl")) A0) as B0. pose proof (proj1 Dt A1) as B1. pose proof (proj1 Df A2) as B2. pose proof (proj1 Lg A3) as B3. pose proof (proj1 Nu A4) as B4.
    pose proof (proj1 Or A5) as B5. pose proof (proj1 (Uri (lit "propertyUrl")) A6) as B6. pose proof (proj1 Se A8) as B8. pose proof (proj1 Td A9) as B9. pose proof (proj1 (Uri (lit "valueUrl")) A10) as B10.
    intros k v I. split; try (intros ->; auto; fail). intros [<-|[<-|[<-|[]]]]; auto.
  - intros A. split; [apply (proj2 (Uri (lit "aboutUrl"))); intros v I; apply (ir_urls _ _ _ (A _ v I)); cbn [map In]; auto|].
    split; [apply (proj2 Dt); intros v I; exact (ir_datatype _ _ _ (A _ v I) eq_refl)|].
    split; [apply (proj2 Df); intros v I; exact (ir_default _ _ _ (A _ v I) eq_refl)|].
    split; [apply (proj2 Lg); intros v I; exact (ir_lang _ _ _ (A _ v I) eq_refl)|].
    split; [apply (proj2 Nu); intros v I; exact (ir_null _ _ _ (A _ v I) eq_refl)|].
    split; [apply (proj2 Or); intros v I; exact (ir_ordered _ _ _ (A _ v I) eq_refl)|].
    split; [apply (proj2 (Uri (lit "propertyUrl"))); intros v I; apply (ir_urls _ _ _ (A _ v I)); cbn [map In]; auto|].
    split; [reflexivity|].
    split; [apply (proj2 Se); intros v I; exact (ir_separator _ _ _ (A _ v I) eq_refl)|].
    split; [apply (proj2 Td); intros v I; exact (ir_textDirection _ _ _ (A _ v I) eq_refl)|].
    split; [apply (proj2 (Uri (lit "valueUrl"))); intros v I; apply (ir_urls _ _ _ (A _ v I)); cbn [map In]; auto|]. constructor.
Qed.
(** more attributes after the inherited ones *)
Lemma quiet_app fs1 fs2 T (d : object) : attrs_quiet (B := B) (fs1 ++ fs2) T d <-> attrs_quiet fs1 T d /\ attrs_quiet fs2 T d.
Proof. unfold attrs_quiet. split; [intros H; split; intros f Hf; apply H, in_or_app; auto|]. intros [H1 H2] f Hf. apply in_app_iff in Hf. destruct Hf; auto. Qed.

(** titles *)
Lemma titles_nil v : titles_warns W v = [] <-> titles_in_order W v.
Proof.
  unfold titles_warns, titles_in_order, null_or, a_string, strings_list.
  destruct v as [|b|z|m|s|l|kvs]; try (split; [discriminate|intros [[E|(s0 & E)]|[(s0 & E)|(s0 & E & _)]]; discriminate E]).
  - split; [auto|reflexivity].
  - split; [eauto|reflexivity].
  - pose proof (strings_list_iff l) as L. destruct (forallb is_str l).
    + split; [|reflexivity]. intros _. right. left. destruct (proj1 L eq_refl) as (ss & ->). eauto.
    + split; [discriminate|]. intros [[E|(s0 & E)]|[(ss & E)|(s0 & E & _)]]; try discriminate E. injection E as ->. assert (X : false = true) by (apply L; eauto). discriminate X.
  - assert (G : titles_object_warns W kvs = [] <-> forall tag t, In (tag, t) kvs -> w_tag_ok W tag = true /\ ((exists s, t = JStr s) \/ exists ss, t = JList (map JStr ss))).
    { induction kvs as [|[k v] kvs IH]; cbn [titles_object_warns]; [split; [intros _ tag t []|reflexivity]|]. destruct (w_tag_ok W k) eqn:Tk.
      - rewrite app_nil_iff, IH, flat_map_nil. 
        assert (X : (forall x, In x (match v with JList l => l | _ => [v] end) -> match x with JStr _ => [] | _ => [LTitle] end = []) <-> (exists s, v = JStr s) \/ exists ss, v = JList (map JStr ss)).
        { destruct v as [|b|z|m|s|l|kv']; try (split; [intros X; specialize (X _ (or_introl eq_refl)); discriminate X|intros [(s0 & E)|(s0 & E)]; discriminate E]).
          - split; [eauto|intros _ x [<-|[]]; reflexivity].
          - split.
            + intros X. right. destruct (proj1 (strings_list_iff l)) as (ss & ->); [|eauto]. apply forallb_forall. intros x Hx. specialize (X x Hx). destruct x; try discriminate X. reflexivity.
            + intros [(s0 & E)|(ss & E)]; [discriminate E|]. injection E as ->. intros x Hx. apply in_map_iff in Hx. destruct Hx as (s & <- & _). reflexivity. }
        rewrite X. split; [intros [A C] tag t [I|I]; [injection I as <- <-; auto|exact (C tag t I)]|]. intros A. split; [exact (proj2 (A k v (or_introl eq_refl)))|]. intros tag t I. exact (A tag t (or_intror I)).
      - split; [discriminate|]. intros A. destruct (A k v (or_introl eq_refl)) as [X _]. congruence. }
    rewrite G. split; [intros A; right; right; eauto|]. intros [[E|(s0 & E)]|[(ss & E)|(kv' & E & A)]]; try discriminate E. injection E as <-. exact A.
Qed.

Lemma names_column : names_ok (Column_class W).
Proof. split; vm_compute; reflexivity. Qed.
Theorem column_nil d o : wf_json (JObj d) -> fromvalue W (Column_class W) (JObj d) = Ok o -> (column_warns W (JObj d) = [] <-> column_in_order W d).
Proof.
  intros Wf H. destruct (fromvalue_quiet W (Column_class W) (column_table W) (fun _ => []) d o Wf names_column H) as (common & at_ & vals & F & _ & _ & Q). unfold column_warns. rewrite Q. clear Q.
  unfold column_in_order. rewrite <- (object_quiet W (Column_class W) (fun k => In k column_keys) (column_rule W) (column_table W) d Wf); [tauto|reflexivity|].
  cbn [Column_class cl_fields] in *. unfold column_fields in *. apply Forall2_app_inv_l in F. destruct F as (dv & rv & F & _ & _).
  rewrite quiet_app, (description_quiet _ d dv Wf) by (first [exact F|intros f Hf; cbn [description_fields In] in Hf; repeat (destruct Hf as [<-|Hf]; [reflexivity|]); destruct Hf]).
  apply wf_obj in Wf. destruct Wf as [Nd _]. rewrite quiet_Forall, !Forall_cons_iff.
  pose proof (attr_q (conv_warns TStr true no_cond) (null_or (nested a_string)) d (lit "name") JNull Nd eq_refl (fun v _ => iff_trans (str_nil true v) (null_or_iff _ v))) as A1.
  assert (Fl : forall n, conv_warns TBool false no_cond (getdef (member d n) (JBool false)) = [] <-> forall v, In (n, v) d -> nested is_bool v).
  { intros n. apply attr_q; [exact Nd|reflexivity|]. intros v _. rewrite bool_nil. split; [intros [[X _]|X]; [discriminate X|exact X]|tauto]. }
  pose proof (attr_q (titles_warns W) (titles_in_order W) d (lit "titles") JNull Nd eq_refl (fun v _ => titles_nil v)) as A3.
  split.
  - intros (A & C1 & C2 & C3 & C4 & _). pose proof (proj1 A1 C1) as B1. pose proof (proj1 (Fl (lit "suppressOutput")) C2) as B2. pose proof (proj1 A3 C3) as B3. pose proof (proj1 (Fl (lit "virtual")) C4) as B4.
    intros k v I. split; [exact (A k v I)|intros ->; auto|intros [<-|[<-|[]]]; auto|intros ->; auto].
  - intros A. split; [intros k v I; exact (cr_inherited _ _ _ (A k v I))|].
    split; [apply (proj2 A1); intros v I; exact (cr_name _ _ _ (A _ v I) eq_refl)|].
    split; [apply (proj2 (Fl (lit "suppressOutput"))); intros v I; apply (cr_flags _ _ _ (A _ v I)); cbn [map In]; auto|].
    split; [apply (proj2 A3); intros v I; exact (cr_titles _ _ _ (A _ v I) eq_refl)|].
    split; [apply (proj2 (Fl (lit "virtual"))); intros v I; apply (cr_flags _ _ _ (A _ v I)); cbn [map In]; auto|]. constructor.
Qed.
End Inherited.
