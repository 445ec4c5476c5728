(** From JSON to loaded columns: proofs. *)
From Coq Require Import Permutation.
From Verif Require Import PyStr Dsv Json Dialects NatLang Datatype Meta MetaSpec MetaProofs MetaProofs2 MetaProofs3 DsvProofs4
  Column ColumnSpec ColumnProofs Schema Table TableSpec Files Descr DescrSpec DescrProofs DescrProofs3 DescrProofs4 Load LoadSpec.
Local Open Scope nat_scope.

Lemma dget_filter {A} (p : pystr -> bool) (kvs : list (pystr * A)) k : p k = true ->
  dget str_eqb (filter (fun kv => p (fst kv)) kvs) k = dget str_eqb kvs k.
Proof.
  intros P. induction kvs as [|[k' v] kvs IH]; [reflexivity|]. cbn [filter fst dget]. destruct (str_eqb_spec k k') as [<-|Hn].
  - rewrite P. cbn [dget]. rewrite str_eqb_refl. reflexivity.
  - destruct (p k'); [|exact IH]. cbn [dget]. destruct (str_eqb_spec k k'); [contradiction|exact IH].
Qed.

Section Build.
Context {B : Type} (W : world B).
(** the attribute values come from the members of the object *)
Definition attr_from (d : object) (f : field B) (v : mval B) : Prop := fd_conv f (getdef (member d (fd_name f)) (fd_default f)) = Ok v.

Definition at_from (d : object) (at_ : list (pystr * json)) : Prop :=
  NoDup (map fst at_) /\ forall k v, k <> lit "id" -> In (k, v) at_ <-> In (lit "@" ++ k, v) d.
Lemma at_get d at_ k : NoDup (map fst d) -> at_from d at_ -> k <> lit "id" -> dget str_eqb at_ k = member d (lit "@" ++ k).
Proof.
  intros Nd [Na H] Hk. unfold member. destruct (dget str_eqb at_ k) as [v|] eqn:E.
  - apply dget_Some_In in E. apply H in E; [|exact Hk]. symmetry. apply (In_dget _ _ _ Nd E).
  - destruct (dget str_eqb d (lit "@" ++ k)) as [v|] eqn:E2; [|reflexivity]. apply dget_Some_In in E2. apply H in E2; [|exact Hk].
    apply dget_None_In in E. elim E. apply (in_map fst) in E2. exact E2.
Qed.
Lemma at_from_expected F d : NoDup (map fst d) -> at_from d (sort_items (expected_at F true d)).
Proof.
  intros Nd. split.
  - eapply Permutation_NoDup; [apply Permutation_map, Permutation_sym, sort_items_perm|]. unfold expected_at.
    rewrite map_map. cbn [fst]. unfold with_fate.
    assert (X : forall l, (forall kv, In kv l -> exists k', fst kv = lit "@" ++ k') -> NoDup (map fst l) -> NoDup (map (fun kv : pystr * json => tl (fst kv)) l)).
    { clear. induction l as [|[k v] l IH]; intros A N; [constructor|]. cbn [map fst] in *. apply NoDup_cons_iff in N. destruct N as [N1 N2]. constructor.
      - intros I. apply in_map_iff in I. destruct I as ([k2 v2] & E & I2). destruct (A (k, v) (or_introl eq_refl)) as [k' E1]. destruct (A (k2, v2) (or_intror I2)) as [k2' E2].
        cbn [fst] in *. subst k k2. cbn [lit app tl] in E. change (k2' = k') in E. subst k2'. apply N1. apply (in_map fst) in I2. exact I2.
      - apply IH; [intros kv Hk; apply A; right; exact Hk|exact N2]. }
    apply X.
    + intros [k v] Hin. apply filter_In in Hin. destruct Hin as [_ Hf]. cbn [fst] in *. destruct (fate_eq_dec _ FAt) as [e|]; [|discriminate Hf]. apply (fate_at_iff F k). exact e.
    + apply NoDup_filter_fst. exact Nd.
  - intros k v Hk. assert (E : In (k, v) (sort_items (expected_at F true d)) <-> In (k, v) (expected_at F true d)).
    { split; apply Permutation_in; [|apply Permutation_sym]; apply sort_items_perm. }
    rewrite E. unfold expected_at. rewrite in_map_iff. split.
    + intros ([k0 v0] & Eq & Hin). apply with_fate_In in Hin. destruct Hin as [Hin Hf]. apply (fate_at_iff F k0) in Hf. destruct Hf as [k' ->].
      cbn [fst snd] in Eq. change (tl (lit "@" ++ k')) with k' in Eq. destruct (str_eq_dec _ _) as [e|e]; [|injection Eq as -> ->; exact Hin].
      injection Eq as -> _. elim Hk. change (lit "@" ++ k = lit "@" ++ lit "id") in e. apply app_inv_head in e. exact e.
    + intros Hin. exists (lit "@" ++ k, v). split.
      * cbn [fst snd]. destruct (str_eq_dec _ _) as [e|e]; [|reflexivity]. change (lit "@" ++ k = lit "@" ++ lit "id") in e. apply app_inv_head in e. contradiction.
      * apply with_fate_In. split; [exact Hin|]. apply fate_at_iff. eauto.
Qed.
Lemma fromvalue_members (C : class B) d o : wf_json (JObj d) -> names_ok C -> fromvalue W C (JObj d) = Ok o ->
  exists common at_ vals, Forall2 (attr_from d) (cl_fields C) vals /\ cl_post C (MO None common at_ vals) = Ok o /\ at_from d at_.
Proof.
  intros Wf [Nm _] H. unfold fromvalue in H.
  destruct (partition_properties (w_tag_ok W) (all_names C) (cl_name C) true (JObj d)) as [[po ws]|] eqn:P; [|discriminate H].
  cbn [bind fst] in H. destruct po as [p|]; [|discriminate H].
  destruct (partition_sound (w_tag_ok W) (all_names C) (cl_name C) true d (Some p) ws Wf P) as (A & E & _).
  injection E as ->. apply new_object_inv in H. destruct H as (vals & _ & F & Post). eexists _, _, vals. split; [|split; [exact Post|apply at_from_expected; apply wf_obj in Wf; apply Wf]].
  cbn [p_attrs] in F. assert (G : forall f, In f (cl_fields C) -> dget str_eqb (expected_attrs (all_names C) true d) (fd_name f) = member d (fd_name f)).
  { intros f Hf. unfold expected_attrs, with_fate, member. rewrite (dget_filter (fun k => if fate_eq_dec (fate_of (all_names C) true k) FAttr then true else false)); [reflexivity|].
    assert (Pl : plain_name (fd_name f)). { apply plain_nameb_ok. apply (proj1 (forallb_forall _ _) Nm). apply in_map. exact Hf. }
    rewrite (fate_field C); [destruct (fate_eq_dec FAttr FAttr); congruence| |exact Pl].
    unfold all_names, field_names. right. right. apply in_or_app. right. apply in_map. exact Hf. }
  clear -F G. revert F G. generalize (cl_fields C). intros fs F. induction F as [|f v fs vs E F IH]; intros G; constructor.
  - unfold attr_from. rewrite <- G by (left; reflexivity). exact E.
  - apply IH. intros f' Hf. apply G. right; exact Hf.
Qed.
(** a false value is an empty object *)
Lemma fromvalue_falsy (C : class B) j : truthy j = false -> fromvalue W C j = fromvalue W C (JObj []).
Proof. intros T. unfold fromvalue, partition_properties. rewrite T. reflexivity. Qed.
Lemma fromvalue_list (C : class B) l o : fromvalue W C (JList l) = Ok o -> l = [].
Proof. destruct l; [reflexivity|]. intros H. discriminate H. Qed.

Context {V : Type} (dtype_of : mobj B -> dtype V).
(** ** What a loaded description has from its object *)
Definition from_member {A} (d : object) (k : pystr) (given : json -> Prop) (R : json -> A -> Prop) (o : option A) : Prop :=
  match o with
  | Some a => exists j, member d k = Some j /\ given j /\ R j a
  | None => forall j, member d k = Some j -> ~ given j
  end.
Definition own_nulls (de : desc V) : option (list pystr) :=
  match de_null de with [[]] => None | n => Some n end.
Record desc_from (d : object) (de : desc V) : Prop := {
  df_required : from_member d (lit "required") not_null (fun j b => truthy j = b) (de_required de);
  df_separator : from_member d (lit "separator") a_string (fun j s => j = JStr s) (de_separator de);
  df_datatype : from_member d (lit "datatype") not_null
    (fun j t => match t with Some t => exists o, datatype_fromvalue W j = Ok o /\ t = dtype_of o | None => truthy j = false end) (de_datatype de);
  df_null : from_member d (lit "null") other_nulls null_strings (own_nulls de);
  df_lang : language_of W d (de_lang de);
  df_default : match member d (lit "default") with Some (JStr s) => de_default de = s | _ => de_default de = [] end;
  df_valueUrl : match member d (lit "valueUrl") with Some (JStr u) => de_valueUrl de = Some u | _ => de_valueUrl de = None end;
  df_propertyUrl : match member d (lit "propertyUrl") with Some (JStr u) => de_propertyUrl de = Some u | _ => de_propertyUrl de = None end;
}.
Lemma strings_map ss : strings (map JStr ss) = ss.
Proof. induction ss as [|s ss IH]; [reflexivity|]. cbn. f_equal. exact IH. Qed.
Lemma strs_map l : forallb is_str l = true -> l = map JStr (strings l).
Proof.
  induction l as [|x l IH]; [reflexivity|]. cbn [forallb]. rewrite andb_true_iff. intros [H1 H2].
  destruct x; try discriminate H1. cbn. f_equal. exact (IH H2).
Qed.
Lemma map_JStr_inj a b : map JStr a = map JStr b -> a = b.
Proof. intros H. rewrite <- (strings_map a), <- (strings_map b), H. reflexivity. Qed.
Lemma conv_null_strings j : exists ss, conv_null j = JList (map JStr ss) /\ (null_strings j ss \/ ss = [[]] /\ forall ss', ~ null_strings j ss').
Proof.
  unfold conv_null. destruct j as [|b|z|m|s|l|kvs].
  - exists []. split; [reflexivity|]. left. constructor.
  - exists [[]]. split; [reflexivity|]. right. split; [reflexivity|]. intros ss' H; inversion H.
  - exists [[]]. split; [reflexivity|]. right. split; [reflexivity|]. intros ss' H; inversion H.
  - exists [[]]. split; [reflexivity|]. right. split; [reflexivity|]. intros ss' H; inversion H.
  - exists [s]. split; [reflexivity|]. left. constructor.
  - destruct (forallb is_str l) eqn:F.
    + exists (strings l). split; [rewrite <- (strs_map l F); reflexivity|]. left. rewrite (strs_map l F) at 1. constructor.
    + exists [[]]. split; [reflexivity|]. right. split; [reflexivity|]. intros ss' H. inversion H; subst. clear -F. induction ss' as [|s ss IH]; [discriminate F|exact (IH F)].
  - exists [[]]. split; [reflexivity|]. right. split; [reflexivity|]. intros ss' H; inversion H.
Qed.
Lemma null_strings_fun j a b : null_strings j a -> null_strings j b -> a = b.
Proof. intros H1 H2. inversion H1; subst; inversion H2; subst; try reflexivity. match goal with H : map JStr _ = map JStr _ |- _ => apply map_JStr_inj in H; congruence end. Qed.

Lemma load_desc_from d n c a dv rest de : Forall2 (attr_from d) (description_fields W) dv ->
  load_desc dtype_of (MO n c a (dv ++ rest)) = Ok de -> desc_from d de.
Proof.
  intros F. unfold description_fields in F.
  repeat match goal with H : Forall2 _ (_ :: _) _ |- _ => inversion H; clear H; subst | H : Forall2 _ [] _ |- _ => inversion H; clear H; subst end.
  unfold attr_from in *. cbn [fd_conv fd_name fd_default plain uri_field datatype_field lang_field] in *.
  unfold load_desc. cbn [o_vals app].
  destruct (a_template y) as [about|] eqn:E1; [|discriminate]. cbn [bind].
  destruct (a_template y5) as [prop|] eqn:E2; [|discriminate]. cbn [bind].
  destruct (a_separator y7) as [sep|] eqn:E3; [|discriminate]. cbn [bind].
  destruct (a_template y9) as [val|] eqn:E4; [|discriminate]. cbn [bind]. intros E. apply Ok_inj in E. subst de.
  assert (X1 : (if truthy (getdef (member d (lit "datatype")) JNull) then o <- datatype_fromvalue W (getdef (member d (lit "datatype")) JNull) ;; Ok (MObj o)
               else Ok (MJ (getdef (member d (lit "datatype")) JNull))) = Ok y0) by assumption.
  assert (X2 : Ok (MJ match getdef (member d (lit "default")) (JStr []) with JStr s => JStr s | _ => JStr [] end) = Ok y1) by assumption.
  assert (X3 : Ok (MJ (conv_null (getdef (member d (lit "null")) (JList [JStr []])))) = Ok y3) by assumption.
  assert (X4 : Ok match getdef (member d (lit "propertyUrl")) JNull with JNull => MJ JNull | JStr s => MUri s | _ => MInvalid end = Ok y5) by assumption.
  assert (X5 : Ok (MJ (getdef (member d (lit "required")) JNull)) = Ok y6) by assumption.
  assert (X6 : Ok (MJ (converter TStr JNull true no_cond (getdef (member d (lit "separator")) JNull))) = Ok y7) by assumption.
  assert (X7 : Ok match getdef (member d (lit "valueUrl")) JNull with JNull => MJ JNull | JStr s => MUri s | _ => MInvalid end = Ok y9) by assumption.
  assert (X8 : match getdef (member d (lit "lang")) (JStr (lit "und")) with JStr s => Ok (MJ (JStr (if w_tag_ok W s then s else lit "und"))) | _ => Err AttributeError end = Ok y2) by assumption.
  apply Ok_inj in X2, X3, X4, X5, X6, X7. subst y1 y3 y5 y6 y7 y9.
  split; cbn [de_required de_separator de_datatype de_null de_lang de_default de_valueUrl de_propertyUrl].
  - destruct (member d (lit "required")) as [j|] eqn:M; cbn [getdef a_required from_member].
    + destruct j; cbn [from_member]; first [intros j' E; rewrite M in E; injection E as <-; intros N; apply N; reflexivity|eexists; split; [exact M|split; [discriminate|reflexivity]]].
    + intros j E. rewrite M in E; discriminate E.
  - destruct (member d (lit "separator")) as [j|] eqn:M; cbn [getdef] in E3.
    + destruct j; cbn in E3; apply Ok_inj in E3 || discriminate E3; subst sep; cbn [from_member];
        first [intros j' E; rewrite M in E; injection E as <-; intros [s' N]; discriminate N|exists (JStr s); split; [exact M|split; [exists s; reflexivity|reflexivity]]].
    + cbn in E3. apply Ok_inj in E3. subst sep. intros j E. rewrite M in E; discriminate E.
  - destruct (member d (lit "datatype")) as [j|] eqn:M; cbn [getdef] in X1.
    + destruct (truthy j) eqn:T.
      * destruct (datatype_fromvalue W j) as [o|] eqn:D; [|discriminate X1]. cbn [bind] in X1. apply Ok_inj in X1. subst y0. cbn [a_datatype from_member].
        exists j. split; [exact M|]. split; [intros ->; discriminate T|]. exists o. split; [exact D|reflexivity].
      * apply Ok_inj in X1. subst y0. destruct j; cbn [a_datatype from_member]; try (eexists; split; [exact M|split; [discriminate|exact T]]).
        intros j' E. rewrite M in E. injection E as <-. intros N. apply N; reflexivity.
    + apply Ok_inj in X1. subst y0. cbn [a_datatype from_member]. intros j E. rewrite M in E; discriminate E.
  - assert (Q : forall ss, strings (map JStr ss) = ss) by exact strings_map.
    destruct (member d (lit "null")) as [j|] eqn:M; cbn [getdef].
    + destruct (conv_null_strings j) as (ss & E & R). rewrite E. unfold own_nulls. cbn [a_strs de_null]. rewrite Q.
      destruct R as [R|[-> R]].
      * destruct ss as [|[|x s] [|s2 ss]]; cbn [from_member]; try (eexists; split; [exact M|]; split; [eexists; split; [exact R|discriminate]|exact R]).
        intros j' E'. rewrite M in E'. injection E' as <-. intros (ss' & R' & N). apply N. eapply null_strings_fun; [exact R'|exact R].
      * cbn [from_member]. intros j' E'. rewrite M in E'. injection E' as <-. intros (ss' & R' & N). elim (R ss' R').
    + change (from_member d (lit "null") other_nulls null_strings None). cbn [from_member]. intros j' E'. rewrite M in E'. discriminate E'.
  - unfold language_of. destruct (member d (lit "lang")) as [j|] eqn:M; cbn [getdef] in X8.
    + destruct j; try discriminate X8. apply Ok_inj in X8. subst y2. reflexivity.
    + apply Ok_inj in X8. subst y2. cbn [a_str]. destruct (w_tag_ok W (lit "und")); reflexivity.
  - destruct (member d (lit "default")) as [[]|]; reflexivity.
  - destruct (member d (lit "valueUrl")) as [[]|]; cbn in E4; (apply Ok_inj in E4; symmetry; exact E4) || discriminate E4.
  - destruct (member d (lit "propertyUrl")) as [[]|]; cbn in E2; (apply Ok_inj in E2; symmetry; exact E2) || discriminate E2.
Qed.

(** ** Inheritance *)
Lemma nearest_cons given k d ds r : (forall j, member d k = Some j -> ~ given j) -> nearest_value given k ds r -> nearest_value given k (d :: ds) r.
Proof.
  intros N H. destruct H as [ds H|before d' after j H1 H2 H3].
  - apply nv_none. intros d' j [<-|Hin]; [exact (N j)|exact (H d' j Hin)].
  - change (d :: before ++ d' :: after) with ((d :: before) ++ d' :: after). apply nv_some; [|exact H2|exact H3].
    intros d2 j' [<-|Hin]; [exact (N j')|exact (H1 d2 j' Hin)].
Qed.
Lemma nearest_here (given : json -> Prop) k d ds j : member d k = Some j -> given j -> nearest_value given k (d :: ds) (Some j).
Proof. intros M G. apply (nv_some given k [] d ds j); [intros d' j' []|exact M|exact G]. Qed.

Lemma inherit_from {A} (get : desc V -> option A) k given (R : json -> A -> Prop) (P : object -> desc V -> Prop) :
  (forall d de, P d de -> from_member d k given R (get de)) ->
  forall ds des d de, P d de -> Forall2 P ds des ->
  exists r, nearest_value given k (d :: ds) r /\
    match inherit get de des with Some a => exists j, r = Some j /\ R j a | None => r = None end.
Proof.
  intros HP ds des. revert ds. induction des as [|de' des IH]; intros ds d de H F; cbn [inherit]; specialize (HP d de H) as Hd;
    destruct (get de) as [a|]; cbn [from_member] in Hd.
  - destruct Hd as (j & M & G & Rj). exists (Some j). split; [apply nearest_here; assumption|]. exists j. split; [reflexivity|exact Rj].
  - inversion F; subst. exists None. split; [|reflexivity]. apply nearest_cons; [exact Hd|]. apply nv_none. intros d' j [].
  - destruct Hd as (j & M & G & Rj). exists (Some j). split; [apply nearest_here; assumption|]. exists j. split; [reflexivity|exact Rj].
  - inversion F as [|d1 ? ds1 ? H1 F1]; subst. destruct (IH ds1 d1 de' H1 F1) as (r & N & M). exists r. split; [|exact M]. apply nearest_cons; assumption.
Qed.
Lemma inherit_null_from (P : object -> desc V -> Prop) :
  (forall d de, P d de -> from_member d (lit "null") other_nulls null_strings (own_nulls de)) ->
  forall ds des d de, P d de -> Forall2 P ds des ->
  exists r, nearest_value other_nulls (lit "null") (d :: ds) r /\
    match r with Some j => null_strings j (inherit_null de des) | None => inherit_null de des = [[]] end.
Proof.
  intros HP ds des d de H F. destruct (inherit_from own_nulls (lit "null") other_nulls null_strings P HP ds des d de H F) as (r & N & M).
  exists r. split; [exact N|]. clear -M. revert de M. induction des as [|de' des IH]; intros de M; cbn [inherit inherit_null] in *; unfold own_nulls in M;
    destruct (de_null de) as [|[|x s] [|s2 ss]]; try (destruct M as (j & -> & R); exact R).
  - subst r. reflexivity.
  - apply IH. exact M.
Qed.
End Build.
