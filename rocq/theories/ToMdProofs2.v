(** C70: datatypes, columns, tables and the group. *)
From Coq Require Import Permutation.
From Verif Require Import PyStr Dsv Json Dec Dialects DialectSpec NatLang Datatype DatatypeSpec DatatypeProofs Meta MetaSpec MetaProofs MetaProofs2 MetaProofs3 DsvProofs4 Names Zip Locate LocateSpec
  Column Schema Table TableSpec Files Descr DescrSpec DescrProofs DescrProofs2 DescrProofs3 DescrProofs4 DescrProofs5 Load LoadSpec LoadProofs LoadProofs2 LoadProofs3 LoadProofs4 LoadProofs5 FrictionlessProofs2
  WarnSpec Cli CliSpec CliProofs1 CliProofs2 CliProofs3 CliProofs4 Frictionless Markdown ToMd ToMdSpec ToMdProofs1.
From Verif Require JsonTextProofs JsonldProofs ToJsonSpec ToJsonProofs2.
Local Open Scope nat_scope.
Section Types.
Context {B : Type} (W : world B).
Variables (bound_str : B -> pystr).
(** the values of a datatype *)
Lemma datatype_values j o : wf_json j -> datatype_fromvalue W j = Ok o ->
  exists f len minl maxl mn mx rest, o_vals o = MJ (JStr (type_name (type_object j))) :: MJ f :: len :: minl :: maxl :: of_bound mn :: of_bound mx :: rest /\
    format_used (type_name (type_object j)) (format_of (type_object j)) f /\
    LoadSpec.bound_says W (type_object j) (lit "minimum") mn /\ LoadSpec.bound_says W (type_object j) (lit "maximum") mx.
Proof.
  intros Wf H. destruct (datatype_members W j o Wf H) as (common & at_ & vals & F & P). clear H. set (d := type_object j) in *.
  cbn [datatype_fields bound_names map app] in F.
  apply F2_cons in F. destruct F as (v0 & t & -> & F0 & F). apply F2_cons in F. destruct F as (v1 & t1 & -> & F1 & F).
  apply F2_cons in F. destruct F as (v2 & t2 & -> & F2 & F). apply F2_cons in F. destruct F as (v3 & t3 & -> & F3 & F).
  apply F2_cons in F. destruct F as (v4 & t4 & -> & F4 & F). apply F2_cons in F. destruct F as (v5 & t5 & -> & F5 & F).
  apply F2_cons in F. destruct F as (v6 & t6 & -> & F6 & F). apply F2_cons in F. destruct F as (v7 & t7 & -> & F7 & F).
  apply F2_cons in F. destruct F as (v8 & t8 & -> & F8 & F). apply F2_cons in F. destruct F as (v9 & t9 & -> & F9 & F).
  apply F2_cons in F. destruct F as (v10 & t10 & -> & F10 & F). apply F2_nil in F. subst t10.
  apply raw_from in F1, F5, F6, F7, F8, F9, F10; try discriminate. subst v1 v5 v6 v7 v8 v9 v10.
  unfold datatype_post in P. cbn [o_vals o_at o_num o_common] in P.
  destruct (base_from _ _ F0) as [-> | ->]; [discriminate P|].
  assert (Ef : getdef (member d (lit "format")) JNull = format_of d) by (unfold format_of; destruct (member d (lit "format")); reflexivity).
  rewrite Ef in P. set (n := type_name d) in *. 
  destruct (dget str_eqb DATATYPES n) as [c|] eqn:Ec; [|discriminate P].
  match type of P with bind ?x _ = _ => destruct x as [[FF keep]|] eqn:PI; [|discriminate P] end. cbn [bind] in P. apply Ok_inj in P. subst o.
  destruct (post_init_spec _ _ _ _ _ _ _ _ PI) as (_ & _ & _ & _ & Bs & _).
  destruct (post_init_lengths _ _ _ _ _ _ _ _ PI) as (_ & _ & _ & pat & Dp & Kp).
  pose proof (dget_Some_In _ _ _ Ec) as InD.
  cbn [fc_minimum fc_maximum fc_minInclusive fc_maxInclusive fc_minExclusive fc_maxExclusive] in Bs.
  exists (if keep then format_of d else JNull), v2, v3, v4, (fc_minimum FF), (fc_maximum FF). eexists. split; [reflexivity|]. split; [|split].
  - rewrite Kp. destruct (dclass_eqb c CDecimal) eqn:Edc; cbn [andb negb].
    + assert (c = CDecimal) by (destruct c; try discriminate Edc; reflexivity). pose proof (proj1 (decimal_names _ _ InD) H) as Dn.
      pose proof (derived_spec W c n (format_of d) pat H Dp) as DS.
      destruct pat as [s|]; cbn [negb].
      * destruct (forallb _ s) eqn:Fb; cbn [negb].
        -- apply fu_kept. intros p x _ Hp Hx. apply pattern_chars_spec. assert (E : Some s = Some p) by (apply DS; left; exact Hp). injection E as ->.
           apply (proj1 (forallb_forall _ _) Fb). exact Hx.
        -- assert (exists x, In x s /\ char_mem x pattern_chars = false) as (x & Hx & Hc).
           { clear -Fb. induction s as [|y s IH]; [discriminate Fb|]. cbn [forallb] in Fb. destruct (char_mem y pattern_chars) eqn:E; [|exists y; split; [left; reflexivity|exact E]].
             destruct (IH Fb) as (x & I & X). exists x. split; [right; exact I|exact X]. }
           apply (fu_ignored n (format_of d) s x Dn); [|exact Hx|intros Q; apply pattern_chars_spec in Q; congruence].
           destruct (proj1 (DS s) eq_refl) as [Q|[_ ->]]; [exact Q|destruct Hx].
      * apply fu_kept. intros p x _ Hp _. assert (E : None = Some p) by (apply DS; left; exact Hp). discriminate E.
    + apply fu_kept. intros p x Dn. apply (decimal_names _ _ InD) in Dn. subst c. discriminate Edc.
  - apply bound_from. fold n. apply (Bs (fc_minimum, fc_minimum)). cbn; tauto.
  - apply bound_from. fold n. apply (Bs (fc_maximum, fc_maximum)). cbn; tauto.
Qed.
Lemma bound_shown d k ob : LoadSpec.bound_says W d k ob -> bound_read W bound_str d k (md_bound W bound_str (of_bound ob)).
Proof.
  unfold LoadSpec.bound_says, bound_read. destruct (member d k) as [j|]; [|intros H; rewrite H; reflexivity].
  destruct j; intros H; first [destruct H as (yy & P & H); rewrite H; exists yy; split; [exact P|reflexivity] | rewrite H; reflexivity].
Qed.
Lemma type_ok d v : wf_json (JObj d) -> attr_from d (datatype_field W) v ->
  match md_type W bound_str v with
  | Some t => exists j, member d (lit "datatype") = Some j /\ truthy j = true /\ datatype_read W bound_str j t
  | None => forall j, member d (lit "datatype") = Some j -> truthy j = false
  end.
Proof.
  intros Wf F.
  assert (F' : (if truthy (getdef (member d (lit "datatype")) JNull) then o <- datatype_fromvalue W (getdef (member d (lit "datatype")) JNull) ;; Ok (MObj o) else Ok (MJ (getdef (member d (lit "datatype")) JNull))) = Ok v) by exact F. clear F.
  destruct (truthy (getdef (member d (lit "datatype")) JNull)) eqn:T.
  - destruct (member d (lit "datatype")) as [j|] eqn:M; [|discriminate T]. cbn [getdef] in *. apply bind_inv in F' as (o & Fo & X). apply Ok_inj in X. subst v.
    destruct (datatype_values j o (member_wf _ _ _ Wf M) Fo) as (f & a & b & c & mn & mx & rest & E & Fu & Mn & Mx). cbn [md_type]. rewrite E.
    exists j. split; [reflexivity|]. split; [exact T|]. split; [reflexivity|exact Fu|exact (bound_shown _ _ _ Mn)|exact (bound_shown _ _ _ Mx)].
  - apply Ok_inj in F'. subst v. cbn [md_type]. intros j M. rewrite M in T. exact T.
Qed.

(** ** Columns *)
Lemma column_ok d o c : wf_json (JObj d) -> fromvalue W (Column_class W) (JObj d) = Ok o -> forall n, md_column W bound_str (MO n (o_common o) (o_at o) (o_vals o)) = Ok c -> column_read W bound_str d c.
Proof.
  intros Wf H n L. pose proof Wf as Nd. apply wf_obj in Nd. destruct Nd as [Nd _].
  destruct (ToJsonProofs2.fromvalue_parts W _ d o Wf (column_names W) H) as (vals & Fv & E).
  pose proof (ToJsonProofs2.common_ok W (all_names (Column_class W)) d Nd) as Cm.
  revert E Cm. generalize (sort_items (expected_common (w_tag_ok W) (all_names (Column_class W)) true d)) as common, (sort_items (expected_at (all_names (Column_class W)) true d)) as at_. intros common at_ E Cm.
  cbn [cl_post Column_class] in E. apply Ok_inj in E. subst o. cbn [o_common o_at o_vals] in *.
  cbn [cl_fields Column_class] in Fv. unfold column_fields in Fv. unfold description_fields in Fv. cbn [app] in Fv.
  inversion Fv as [|? m0 ? ? _ G1]; subst. inversion G1 as [|? m1 ? ? H1 G2]; subst. inversion G2 as [|? m2 ? ? _ G3]; subst. inversion G3 as [|? m3 ? ? _ G4]; subst.
  inversion G4 as [|? m4 ? ? _ G5]; subst. inversion G5 as [|? m5 ? ? _ G6]; subst. inversion G6 as [|? m6 ? ? H6 G7]; subst. inversion G7 as [|? m7 ? ? _ G8]; subst.
  inversion G8 as [|? m8 ? ? H8 G9]; subst. inversion G9 as [|? m9 ? ? _ G10]; subst. inversion G10 as [|? m10 ? ? _ G11]; subst. inversion G11 as [|? m11 ? ? H11 G12]; subst.
  clear Fv G1 G2 G3 G4 G5 G6 G7 G8 G9 G10 G11 G12.
  assert (H6' : Ok match getdef (member d (lit "propertyUrl")) JNull with JNull => MJ JNull | JStr s => MUri s | _ => MInvalid end = Ok m6) by exact H6. apply Ok_inj in H6'.
  assert (H8' : Ok (MJ (converter TStr JNull true no_cond (getdef (member d (lit "separator")) JNull))) = Ok m8) by exact H8. apply Ok_inj in H8'.
  assert (H11' : Ok (MJ (converter TStr JNull true no_cond (getdef (member d (lit "name")) JNull))) = Ok m11) by exact H11. apply Ok_inj in H11'.
  clear H6 H8 H11. subst m6 m8 m11. unfold md_column in L. cbn [o_vals o_common nth] in L.
  apply bind_inv in L as (url & Lu & L). apply bind_inv in L as (sep & Ls & L). apply bind_inv in L as (name & Ln & L). apply Ok_inj in L. subst c.
  split; cbn [mc_name mc_url mc_sep mc_props mc_datatype].
  - destruct (member d (lit "name")) as [[]|]; cbn in Ln; try discriminate Ln; apply Ok_inj in Ln; subst name; try (intros; discriminate). reflexivity.
  - destruct (member d (lit "propertyUrl")) as [[]|]; cbn in Lu; try discriminate Lu; apply Ok_inj in Lu; subst url; reflexivity.
  - destruct (member d (lit "separator")) as [[]|]; cbn in Ls; try discriminate Ls; apply Ok_inj in Ls; subst sep; reflexivity.
  - exact Cm.
  - exact (type_ok d m1 Wf H1).
Qed.
End Types.
