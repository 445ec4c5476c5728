(** Serialising and reading again: datatypes and the attributes of all descriptions. *)
From Coq Require Import Sorted Permutation.
From Verif Require Import PyStr Dsv Json Dialects NatLang Datatype Column ColumnSpec Meta MetaSpec Descr DescrSpec DescrProofs DescrProofs2 DescrProofs3 FromParts SettleSpec SettleProofs SettleProofs2.
From Verif Require ColumnProofs2.
Local Open Scope nat_scope.

Lemma dget_full (l : list (pystr * json)) k : (forall v, In (k, v) l -> is_empty v = false) -> dget str_eqb (filter full l) k = dget str_eqb l k.
Proof.
  induction l as [|[k' v] l IH]; intros H; [reflexivity|]. cbn [filter]. unfold full at 1. cbn [snd]. destruct (is_empty v) eqn:E; cbn [negb].
  - rewrite IH by (intros; apply H; right; assumption). cbn [dget]. destruct (str_eqb k k') eqn:K; [|reflexivity]. apply str_eqb_eq in K. subst k'. rewrite (H v) in E by (left; reflexivity). discriminate E.
  - cbn [dget]. destruct (str_eqb k k'); [reflexivity|]. apply IH. intros; apply H; right; assumption.
Qed.

Section Settle.
Context {B : Type} (env : world B).
Notation mval := (mval B). Notation mobj := (mobj B). Notation field := (field B). Notation class := (class B).
Notation stored_ok := (stored_ok env).

Lemma id_not_empty (C : class) common at_ : stored_ok C common at_ -> forall v, In (lit "id", v) at_ -> is_empty v = false.
Proof. intros S v H. destruct (st_id _ _ _ _ S v H) as [->|(s & -> & _)]; reflexivity. Qed.

(** ** Datatype *)
Lemma same_json R S (f : field) j : fd_default f = JNull -> ~ empty_json j -> value_survives env S f (MJ j) /\ value_settled env R f (MJ j) (MJ j).
Proof.
  intros D E. split.
  - cbn [value_survives]. split; [contradiction|]. rewrite D. discriminate.
  - destruct (py_eq j (fd_default f)) eqn:P.
    + left. split; [right; exact P|]. rewrite D in P |- *. apply py_eq_null in P. subst j. reflexivity.
    + right. split; [|reflexivity]. cbn [not_written]. intros [[X _]|X]; [contradiction|congruence].
Qed.
Lemma same_bound R S (f : field) ob : fd_default f = JNull -> value_survives env S f (of_bound ob) /\ value_settled env R f (of_bound ob) (of_bound ob).
Proof.
  intros D. destruct ob as [b|]; cbn [of_bound].
  - split; [exact I|]. right. split; [intros []|reflexivity].
  - apply same_json; [exact D|]. intros [X|X]; discriminate X.
Qed.
Lemma same_int R S n v : converted (int_field env n) v -> value_survives env S (int_field env n) v /\ value_settled env R (int_field env n) v v.
Proof. intros C. destruct (int_converted env n v C) as [->|(z & ->)]; apply same_json; try reflexivity; intros [X|X]; discriminate X. Qed.

Theorem datatype_settles v o j : wf_json v -> datatype_fromvalue env v = Ok o -> datatype_keeps env o -> datatype_asdict env true o = Ok j ->
  exists v' o', wf_json v' /\ truthy v' = true /\ datatype_fromvalue env v' = Ok o' /\ datatype_asdict env true o' = Ok j /\
    datatype_settled env o o' /\ datatype_survives env o'.
Proof.
  intros Hw H [Kf Kb] E. destruct (dt_fromvalue env v o Hw H) as (d0 & Hw0 & _ & H0). clear v Hw H.
  destruct (fromvalue_parts env _ _ _ Hw0 (dt_wf_defaults env) H0) as (common & at_ & vals & St & Wa & F & P). clear H0 Hw0 d0.
  pose proof (stored_filter env _ _ _ St) as St'. pose proof F as F'.
  cbn [Datatype_class cl_fields datatype_fields bound_names map app] in F.
  apply F2_cons in F. destruct F as (v0 & t & -> & F0 & F). apply F2_cons in F. destruct F as (v1 & t1 & -> & F1 & F).
  apply F2_cons in F. destruct F as (v2 & t2 & -> & F2 & F). apply F2_cons in F. destruct F as (v3 & t3 & -> & F3 & F).
  apply F2_cons in F. destruct F as (v4 & t4 & -> & F4 & F). apply F2_cons in F. destruct F as (v5 & t5 & -> & F5 & F).
  apply F2_cons in F. destruct F as (v6 & t6 & -> & F6 & F). apply F2_cons in F. destruct F as (v7 & t7 & -> & F7 & F).
  apply F2_cons in F. destruct F as (v8 & t8 & -> & F8 & F). apply F2_cons in F. destruct F as (v9 & t9 & -> & F9 & F).
  apply F2_cons in F. destruct F as (v10 & t10 & -> & F10 & F). apply F2_nil in F. subst t10.
  pose proof P as P0. cbn [Datatype_class cl_post] in P. unfold datatype_post in P. cbn [o_vals o_at o_common o_num] in P.
  destruct v0 as [b0| | | | | | | | |]; try discriminate P. destruct v1 as [fmt| | | | | | | | |]; try discriminate P.
  destruct b0 as [| | | |b| |]; try discriminate P. destruct (dget str_eqb DATATYPES b) as [c|] eqn:Ec; [|discriminate P].
  match type of P with bind ?x _ = _ => destruct x as [[FF keep]|] eqn:PI; [|discriminate P] end. cbn [bind] in P. apply Ok_inj in P.
  set (vals := [MJ (JStr b); MJ fmt; v2; v3; v4; v5; v6; v7; v8; v9; v10]) in *.
  set (vals1 := [MJ (JStr b); MJ (if keep then fmt else JNull); v2; v3; v4; of_bound (fc_minimum FF); of_bound (fc_maximum FF); of_bound (fc_minInclusive FF);
                 of_bound (fc_maxInclusive FF); of_bound (fc_minExclusive FF); of_bound (fc_maxExclusive FF)]) in *.
  set (o' := MO None (filter full common) (filter full at_) vals1).
  assert (P' : cl_post (Datatype_class env) (MO None (filter full common) (filter full at_) vals) = Ok o').
  { cbn [Datatype_class cl_post]. unfold datatype_post, vals. cbn [o_vals o_at o_common o_num]. rewrite Ec. unfold builtin_id in *.
    rewrite (dget_full at_ (lit "id") (id_not_empty _ _ _ St)). unfold pystr in *. rewrite PI. reflexivity. }
  destruct (from_parts_named env (Datatype_class env) (filter full common) (filter full at_) vals o') as (d & Wd & Hd & Nd); [split; reflexivity|exact St'| |exact F'|exact P'|].
  { intros k v Hin. apply filter_In in Hin. eapply Wa, Hin. }
  assert (Hb : has (lit "base") d = true).
  { specialize (Nd (lit "base") (or_introl eq_refl)). apply in_map_iff in Nd. destruct Nd as (kv & Ek & Hin). apply existsb_exists. exists kv. split; [exact Hin|]. apply str_eqb_eq. exact Ek. }
  exists (JObj d), o'. split; [exact Wd|]. split; [destruct d; [discriminate Hb|reflexivity]|]. split; [cbn [datatype_fromvalue]; rewrite Hb; exact Hd|].
  assert (Fo : dt_format o = (if keep then fmt else JNull)) by (subst o; reflexivity). rewrite Fo in Kf. clear Fo.
  destruct (in_datatypes_name _ _ Ec) as [_ Nb].
  split; [|].
  - unfold datatype_asdict in *. subst o. fold (dt_out env (MO None common at_ vals1)) in E. fold (dt_out env o').
    change (dt_out env o') with (dt_out env (MO None common at_ vals1)).
    destruct (asdict (dt_out env (MO None common at_ vals1)) true (MO None common at_ vals1)) as [d1|] eqn:Ed; [|discriminate E].
    destruct (asdict_parts _ _ _ _ _ _ (eq_refl : length (cl_fields (dt_out env (MO None common at_ vals1))) = length vals1) Ed) as (rs & Cr & ->).
    unfold o'. rewrite (asdict_same env (dt_out env (MO None common at_ vals1)) None common at_ vals1 rs); [exact E| |reflexivity|exact Cr].
    constructor; try apply St.
  - assert (Same : Forall2 (fun (f : field) v => value_survives env (fun _ _ => False) f v /\ value_settled env (fun _ _ _ => False) f v v) (cl_fields (Datatype_class env)) vals1).
    { cbn [Datatype_class cl_fields datatype_fields bound_names map app]. unfold vals1.
      apply Forall2_cons; [apply same_json; [reflexivity|intros [X|X]; discriminate X]|].
      apply Forall2_cons; [apply same_json; [reflexivity|exact Kf]|].
      do 3 (apply Forall2_cons; [apply same_int; assumption|]).
      repeat (apply Forall2_cons; [apply same_bound; reflexivity|]). apply Forall2_nil. }
    split.
    + subst o. constructor; cbn [o_num o_common o_at o_vals o']; [reflexivity|apply kept_filter|apply kept_filter|]. clear -Same.
      revert Same. generalize vals1. generalize (cl_fields (Datatype_class env)). clear. intros fs. induction fs as [|f fs IH]; intros vs H; [apply F2_nil in H; subst; constructor|].
      apply F2_cons in H. destruct H as (v & vs' & -> & [_ H1] & H2). cbn [combine]. constructor; [exact H1|]. apply IH, H2.
    + split.
      * apply survives_stored; [exact St|]. eapply ColumnProofs2.Forall2_impl; [|exact Same]. intros f v [H1 _]. exact H1.
      * intros bb s Hin Hs. subst o. exact (Kb bb s Hin Hs).
Qed.
End Settle.
