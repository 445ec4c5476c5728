(** Attributes survive serialisation: for each attribute of a description, what is built from its serialised value. *)
From Coq Require Import Sorted Permutation.
From Verif Require Import PyStr Dsv Json Dialects DialectProofs NatLang NatLangProofs Datatype Meta MetaSpec MetaProofs MetaProofs2 MetaProofs3
  Descr DescrSpec DescrProofs.

Section Fields.
Context {B : Type} (env : world B).
Notation tag_ok := (w_tag_ok env).
Notation field := (field B). Notation class := (class B). Notation mobj := (mobj B). Notation mval := (mval B).

Definition ser_ok (omit : bool) (f : field) (v : mval) : Prop :=
  omitted omit f v = false -> exists j, fd_ser f omit v = Ok j.
Definition field_ok (sub : pystr -> mobj -> Prop) (f : field) : Prop :=
  forall omit v, converted f v -> value_survives env sub f v -> ser_ok omit f v -> rebuilt omit f v v.

Lemma is_empty_iff j : is_empty j = true <-> empty_json j.
Proof.
  unfold empty_json. destruct j as [| | | | |[|]|[|]]; cbn; split; try discriminate; try tauto; intros [H|H]; try discriminate H.
Qed.

(** an attribute that is serialised as it is *)
Lemma json_field_ok sub (f : field) : fd_ser f = ser_json ->
  (forall j v, fd_conv f j = Ok v -> exists w, v = MJ w /\ fd_conv f w = Ok v) ->
  (forall j w, fd_conv f j = Ok (MJ w) -> py_eq w (fd_default f) = true -> fd_default f = JBool false \/ w = fd_default f) ->
  fd_conv f (fd_default f) = Ok (MJ (fd_default f)) ->
  field_ok sub f.
Proof.
  intros S I E D omit v (j & _ & Hc) V O. destruct (I _ _ Hc) as (w & -> & Hw). cbn [value_survives] in V. destruct V as [V1 V2].
  assert (Def : w = fd_default f -> fd_conv f (fd_default f) = Ok (MJ w)) by (intros ->; exact D).
  unfold rebuilt. destruct (omitted omit f (MJ w)) eqn:Om.
  - apply Def. unfold omitted in Om. apply andb_true_iff in Om. destruct Om as [_ Om]. cbn [equals_default] in Om.
    destruct (E _ _ Hc Om) as [F|F]; [|exact F]. rewrite F in Om. rewrite F. apply V2; assumption.
  - exists w. rewrite S. split; [reflexivity|]. destruct (is_empty w) eqn:Em; [|exact Hw].
    apply is_empty_iff in Em. destruct (str_eqb (fd_name f) (lit "null")) eqn:N; [exact Hw|].
    destruct (V1 Em) as [F|F]; [apply str_eqb_eq in F; congruence|apply Def, F].
Qed.
Lemma plain_ok sub n d c : (forall j, c (c j) = c j) -> (forall j, py_eq (c j) d = true -> d = JBool false \/ c j = d) -> c d = d ->
  field_ok sub (plain n d c).
Proof.
  intros I E D. apply json_field_ok; cbn [plain fd_ser fd_conv fd_default].
  - reflexivity.
  - intros j v H. injection H as <-. eexists. split; [reflexivity|]. rewrite I. reflexivity.
  - intros j w H. injection H as <-. apply E.
  - rewrite D. reflexivity.
Qed.

Lemma py_eq_nil v : py_eq v (JList []) = true -> v = JList [].
Proof. apply (py_eq_strs v []). Qed.

Lemma converter_null_idem t cond v : t <> TList -> converter t JNull true cond (converter t JNull true cond v) = converter t JNull true cond v.
Proof.
  intros Ht. destruct v as [|b|z|r|s|l|kvs]; try (destruct t; try congruence; cbn [converter isinst andb];
    try reflexivity; destruct (cond _) eqn:E; cbn [converter isinst andb]; rewrite ?E; reflexivity).
  destruct (converter t JNull true cond (JList l)) as [| | | | |m|] eqn:E.
  1: destruct t; try congruence; reflexivity.
  1-4,6: destruct t; try congruence; cbn in E; discriminate.
  assert (H : conv_item t cond (JList l) = Some (JList m)).
  { destruct t; try congruence; cbn [converter] in E; cbn [conv_item] in *; congruence. }
  apply conv_item_idem in H. destruct t; try congruence; cbn [converter]; rewrite H; reflexivity.
Qed.

(** ** inherited properties *)
Lemma uri_field_ok sub n : field_ok sub (uri_field n).
Proof.
  intros omit v (j & _ & Hc) V O. cbn [uri_field fd_conv] in Hc. injection Hc as <-. unfold rebuilt, ser_ok, omitted in *.
  destruct j as [| | | |s| |]; cbn [uri_field fd_conv fd_ser fd_default equals_default fd_name] in *;
    try (rewrite andb_false_r in *; destruct (O eq_refl) as [j' H]; discriminate H).
  - destruct omit; cbn; [reflexivity|]. exists JNull. split; reflexivity.
  - rewrite andb_false_r. exists (JStr s). split; reflexivity.
Qed.
Lemma link_field_ok sub n : field_ok sub (link_field n).
Proof.
  intros omit v (j & _ & Hc) V O. cbn [link_field fd_conv] in Hc. unfold rebuilt, omitted in *.
  destruct j as [| | | |s| |]; try discriminate Hc; injection Hc as <-; cbn [link_field fd_conv fd_ser fd_default equals_default fd_name].
  - destruct omit; cbn; [reflexivity|]. exists JNull. split; reflexivity.
  - rewrite andb_false_r. exists (JStr s). split; reflexivity.
Qed.
Lemma lang_ok sub : field_ok sub (lang_field env).
Proof.
  apply json_field_ok; cbn [lang_field fd_ser fd_conv fd_default].
  - reflexivity.
  - intros j v H. destruct j as [| | | |s| |]; try discriminate H. injection H as <-. eexists. split; [reflexivity|].
    destruct (tag_ok s) eqn:E; [rewrite E; reflexivity|]. cbn [lit].
    match goal with |- context [if ?b then _ else _] => destruct b end; reflexivity.
  - intros j w H E. right. apply py_eq_str, E.
  - match goal with |- context [if ?b then _ else _] => destruct b end; reflexivity.
Qed.
Lemma conv_null_idem j : conv_null (conv_null j) = conv_null j.
Proof.
  unfold conv_null at 2 3. destruct (forallb is_str _) eqn:E.
  - unfold conv_null. rewrite E. reflexivity.
  - reflexivity.
Qed.

(** ** Datatype *)
Lemma dt_of_str s : fromvalue env (Datatype_class env) (JObj [(lit "base", JStr s)]) = datatype_fromvalue env (JStr s).
Proof. reflexivity. Qed.

Lemma dt_fromvalue v o : wf_json v -> datatype_fromvalue env v = Ok o ->
  exists d, wf_json (JObj d) /\ has (lit "base") d = true /\ fromvalue env (Datatype_class env) (JObj d) = Ok o.
Proof.
  intros Hw H. destruct v as [| | | |s| |kvs]; try discriminate H.
  - rewrite <- dt_of_str in H. eexists. split; [|split; [|exact H]]; [|reflexivity].
    apply wf_obj. split; [repeat constructor; intros []|]. intros k v [E|[]]. injection E as _ <-. exact I.
  - cbn [datatype_fromvalue] in H. destruct (has (lit "base") kvs) eqn:E; [eauto|].
    eexists. split; [|split; [|exact H]].
    + apply wf_obj in Hw. destruct Hw as [N Hw]. apply wf_obj. split.
      * rewrite map_app. apply NoDup_app_intro; [exact N|repeat constructor; intros []|].
        intros x H1 [<-|[]]. apply in_map_iff in H1. destruct H1 as ([k v] & Ek & H1). cbn [fst] in Ek. subst k.
        assert (X : has (lit "base") kvs = true) by (apply existsb_exists; eexists; split; [exact H1|reflexivity]). congruence.
      * intros k v Hin. apply in_app_iff in Hin. destruct Hin as [Hin|[E'|[]]]; [eapply Hw, Hin|]. injection E' as _ <-. exact I.
    + unfold has. rewrite existsb_app. apply orb_true_r.
Qed.

(** the class whose asdict is used: bounds are formatted *)
Definition dt_out (o : mobj) : class :=
  {| cl_name := lit "Datatype"; cl_fields := firstn 5 (datatype_fields env) ++ map (bound_field env o) bound_names;
     cl_private := []; cl_post := datatype_post env |}.
Lemma dt_out_fromvalue o d : fromvalue env (dt_out o) d = fromvalue env (Datatype_class env) d.
Proof. reflexivity. Qed.
Lemma dt_wf_defaults (f : field) : In f (cl_fields (Datatype_class env)) -> wf_json (fd_default f).
Proof. intros H. cbn in H. repeat (destruct H as [<-|H]; [exact I|]). destruct H. Qed.

Lemma F2_cons {X Y} (R : X -> Y -> Prop) x xs ys : Forall2 R (x :: xs) ys -> exists y ys', ys = y :: ys' /\ R x y /\ Forall2 R xs ys'.
Proof. intros H. inversion H; subst. eauto. Qed.
Lemma F2_cc {X Y} (R : X -> Y -> Prop) x xs y ys : Forall2 R (x :: xs) (y :: ys) -> R x y /\ Forall2 R xs ys.
Proof. intros H. inversion H; subst. auto. Qed.
Lemma F2_nil {X Y} (R : X -> Y -> Prop) ys : Forall2 R [] ys -> ys = [].
Proof. intros H. inversion H. reflexivity. Qed.

(** [post_init] depends on the unparsed bounds only through their values *)
Definition reads {R V} (parse : R -> res V) (r : option R) (v : option V) : Prop :=
  match r, v with None, None => True | Some x, Some y => parse x = Ok y | _, _ => False end.
Lemma post_init_again {R R' V} (ops : vops V) (parse : R -> res V) (parse' : R' -> res V) c der der' idb raw raw' F keep pat' :
  post_init ops parse c der idb raw = Ok (F, keep) ->
  fc_length raw' = fc_length F -> fc_minLength raw' = fc_minLength F -> fc_maxLength raw' = fc_maxLength F ->
  reads parse' (fc_minimum raw') (fc_minimum F) -> reads parse' (fc_maximum raw') (fc_maximum F) ->
  reads parse' (fc_minInclusive raw') (fc_minInclusive F) -> reads parse' (fc_maxInclusive raw') (fc_maxInclusive F) ->
  reads parse' (fc_minExclusive raw') (fc_minExclusive F) -> reads parse' (fc_maxExclusive raw') (fc_maxExclusive F) ->
  der' = Ok pat' ->
  post_init ops parse' c der' idb raw' =
    Ok (F, negb (dclass_eqb c CDecimal && match pat' with Some s => negb (forallb (fun x => char_mem x pattern_chars) s) | None => false end)).
Proof.
  unfold post_init. intros H L1 L2 L3 R1 R2 R3 R4 R5 R6 ->.
  assert (P : forall (r : option R') (v : option V), reads parse' r v ->
    match r with Some x => y <- parse' x ;; Ok (Some y) | None => Ok None end = Ok v).
  { intros [x|] [y|] Hr; cbn in Hr; try contradiction; [rewrite Hr|]; reflexivity. }
  rewrite (P _ _ R1), (P _ _ R2), (P _ _ R3), (P _ _ R4), (P _ _ R5), (P _ _ R6). cbn [bind]. rewrite L1, L2, L3. clear P.
  repeat match type of H with
  | bind ?x _ = Ok _ => destruct x as [?|] eqn:?; [cbn [bind] in H|discriminate H]
  | (if ?b then Err _ else _) = Ok _ => destruct b eqn:?; [discriminate H|]
  end.
  injection H as <- <-. cbn [fc_length fc_minLength fc_maxLength fc_minimum fc_maximum fc_minInclusive fc_maxInclusive fc_minExclusive fc_maxExclusive].
  repeat match goal with
  | E : ?x = false |- context [if ?x then Err _ else _] => rewrite E
  | E : ?x = Ok false |- context [bind ?x _] => rewrite E; cbn [bind]
  end.
  reflexivity.
Qed.
Lemma post_init_lengths {R V} (ops : vops V) (parse : R -> res V) c der idb raw F keep :
  post_init ops parse c der idb raw = Ok (F, keep) ->
  fc_length F = fc_length raw /\ fc_minLength F = fc_minLength raw /\ fc_maxLength F = fc_maxLength raw /\
  exists pat, der = Ok pat /\
    keep = negb (dclass_eqb c CDecimal && match pat with Some s => negb (forallb (fun x => char_mem x pattern_chars) s) | None => false end).
Proof.
  unfold post_init. intros H.
  repeat match type of H with
  | bind ?x _ = Ok _ => destruct x as [?|] eqn:?; [cbn [bind] in H|discriminate H]
  | (if ?b then Err _ else _) = Ok _ => destruct b eqn:?; [discriminate H|]
  end.
  injection H as <- <-. cbn [fc_length fc_minLength fc_maxLength]. repeat split. eexists. split; reflexivity.
Qed.


Lemma asdict_ser_ok omit : forall (fs : list field) ws attrs, asdict_attrs omit fs ws = Ok attrs -> length fs = length ws ->
  Forall2 (ser_ok omit) fs ws.
Proof.
  induction fs as [|f fs IH]; intros [|w ws] attrs E L; try discriminate L; constructor.
  - intros O. rewrite asdict_attrs_cons, O in E. destruct (fd_ser f omit w); [eauto|discriminate E].
  - injection L as L. rewrite asdict_attrs_cons in E. destruct (omitted omit f w); [eapply IH; eauto|].
    destruct (fd_ser f omit w); [|discriminate E]. cbn [bind] in E. destruct (asdict_attrs omit fs ws) eqn:E2; [|discriminate E].
    eapply IH; eauto.
Qed.
Lemma asdict_inv (C : class) omit o d : asdict C omit o = Ok d -> exists attrs, asdict_attrs omit (cl_fields C) (o_vals o) = Ok attrs.
Proof. unfold asdict. destruct (asdict_attrs _ _ _); [eauto|discriminate]. Qed.

Lemma survives_nonempty sub (C : class) o : obj_survives env sub C o -> Forall nonempty (o_common o) /\ Forall nonempty (o_at o).
Proof.
  intros V. split; apply Forall_forall; intros [k j] H; unfold nonempty; cbn [snd]; (destruct (is_empty j) eqn:Ej; [|reflexivity]);
    apply is_empty_iff in Ej; [elim (sv_common _ _ _ _ V k j H Ej)|elim (sv_at _ _ _ _ V k j H Ej)].
Qed.
(** serialise and build again, given what becomes of each attribute *)
Lemma rebuild' sub (C : class) omit o d ps :
  names_ok C -> stored_ok env C (o_common o) (o_at o) -> obj_survives env sub C o ->
  asdict C omit o = Ok d ->
  (Forall2 (ser_ok omit) (cl_fields C) (o_vals o) -> Forall2 (fun fw p => rebuilt omit (fst fw) (snd fw) p) (combine (cl_fields C) (o_vals o)) ps) ->
  fromvalue env C (JObj d) = cl_post C (MO None (o_common o) (o_at o) ps).
Proof.
  intros N S V E R. assert (L : length (cl_fields C) = length (o_vals o)) by (eapply Forall2_length, (sv_values _ _ _ _ V)).
  destruct (asdict_inv _ _ _ _ E) as [attrs EA].
  destruct (survives_nonempty _ _ _ V) as [N1 N2]. apply (rebuild env C omit o d ps N S); try assumption.
  apply R. eapply asdict_ser_ok; eauto.
Qed.

Lemma bound_rebuilt o n ob : bounds_survive env o -> In (of_bound ob) (o_vals o) -> ser_ok true (bound_field env o n) (of_bound ob) ->
  exists r, rebuilt true (bound_field env o n) (of_bound ob) (MJ r) /\
    reads (w_parse env (dt_base o) (dt_format o)) (opt_raw (@MJ B r)) ob.
Proof.
  intros V Hin S. destruct ob as [b|]; cbn [of_bound] in *.
  - destruct (S eq_refl) as [j Hj]. cbn [bound_field fd_ser ser_bound] in Hj. destruct (w_formatted env _ _ b) as [s|] eqn:E; [|discriminate Hj].
    cbn [bind] in Hj. injection Hj as <-. exists (JStr s). split.
    + unfold rebuilt, omitted. cbn [andb equals_default]. exists (JStr s). cbn [bound_field fd_ser ser_bound is_empty fd_conv]. rewrite E. split; reflexivity.
    + cbn. eapply V; eauto.
  - exists JNull. split; [reflexivity|exact I].
Qed.

Lemma in_datatypes_name b c : dget str_eqb DATATYPES b = Some c -> in_datatypes (JStr b) = true /\ b <> [].
Proof. intros H. split; [unfold in_datatypes; rewrite H; reflexivity|]. intros ->. discriminate H. Qed.

Lemma int_converted n v : converted (int_field env n) v -> v = MJ JNull \/ exists z, v = MJ (JInt z).
Proof.
  intros (j & _ & H). cbn [int_field fd_conv] in H. destruct j as [|[]|z|r|s|l|kvs]; try discriminate H; try (injection H as <-; eauto);
  destruct (w_py_int env _); try discriminate H; cbn [bind] in H; injection H as <-; eauto.
Qed.
Lemma int_field_ok sub n : field_ok sub (int_field env n).
Proof.
  apply json_field_ok.
  - reflexivity.
  - intros j v H. assert (X : v = MJ JNull \/ exists z, v = MJ (JInt z)).
    { cbn [int_field fd_conv] in H. destruct j as [|[]|z|r|s|l|kvs]; try discriminate H; try (injection H as <-; eauto);
      destruct (w_py_int env _); try discriminate H; cbn [bind] in H; injection H as <-; eauto. }
    destruct X as [->|[z ->]]; eexists; split; reflexivity.
  - intros j w _ E. right. apply py_eq_null, E.
  - reflexivity.
Qed.

Theorem datatype_rt v o j : wf_json v -> datatype_fromvalue env v = Ok o -> datatype_survives env o ->
  datatype_asdict env true o = Ok j -> datatype_fromvalue env j = Ok o /\ truthy j = true /\ (forall l, j <> JList l).
Proof.
  intros Hw H [V Vb] E. destruct (dt_fromvalue v o Hw H) as (d0 & Hw0 & _ & H0). clear v Hw H.
  destruct (fromvalue_inv env _ _ _ Hw0 dt_wf_defaults H0) as (common & at_ & vals & St & F & P). clear H0 Hw0 d0.
  cbn [Datatype_class cl_fields datatype_fields bound_names map app] in F.
  apply F2_cons in F. destruct F as (v0 & t & -> & F0 & F). apply F2_cons in F. destruct F as (v1 & t1 & -> & F1 & F).
  apply F2_cons in F. destruct F as (v2 & t2 & -> & F2 & F). apply F2_cons in F. destruct F as (v3 & t3 & -> & F3 & F).
  apply F2_cons in F. destruct F as (v4 & t4 & -> & F4 & F). apply F2_cons in F. destruct F as (v5 & t5 & -> & F5 & F).
  apply F2_cons in F. destruct F as (v6 & t6 & -> & F6 & F). apply F2_cons in F. destruct F as (v7 & t7 & -> & F7 & F).
  apply F2_cons in F. destruct F as (v8 & t8 & -> & F8 & F). apply F2_cons in F. destruct F as (v9 & t9 & -> & F9 & F).
  apply F2_cons in F. destruct F as (v10 & t10 & -> & F10 & F). apply F2_nil in F. subst t10.
  assert (R : forall n (v : mval), converted (raw_field n) v -> exists j, v = MJ j /\ wf_json j).
  { intros n v (j' & Wj & H). cbn in H. injection H as <-. eauto. }
  destruct (R _ _ F1) as (fmt & -> & Wf). clear R.
  assert (X0 : exists b, v0 = MJ b).
  { destruct F0 as (j' & _ & H). cbn [base_field fd_conv] in H. cbv zeta in H. destruct (converter _ _ _ _ j'); try discriminate H; injection H as <-; eauto. }
  destruct X0 as [b0 ->]. cbn [Datatype_class cl_post datatype_post o_vals o_at o_common o_num] in P.
  destruct b0 as [| | | |b| |]; try discriminate P. destruct (dget str_eqb DATATYPES b) as [c|] eqn:Ec; [|discriminate P].
  match type of P with bind ?x _ = _ => destruct x as [[FF keep]|] eqn:PI; [|discriminate P] end. cbn [bind] in P. injection P as <-.
  set (fmt' := if keep then fmt else JNull) in *.
  set (o := MO None common at_ _) in *.
  destruct (post_init_lengths _ _ _ _ _ _ _ _ PI) as (L1 & L2 & L3 & pat & Dp & Kp). cbn [fc_length fc_minLength fc_maxLength] in L1, L2, L3.
  destruct (in_datatypes_name _ _ Ec) as [Eb Nb].
  unfold datatype_asdict in E. fold (dt_out o) in E. destruct (asdict (dt_out o) true o) as [d|] eqn:EA; [|discriminate E].
  cbn [bind] in E. injection E as E.
  assert (Hin : forall ob, In ob [fc_minimum FF; fc_maximum FF; fc_minInclusive FF; fc_maxInclusive FF; fc_minExclusive FF; fc_maxExclusive FF] ->
    In (of_bound ob) (o_vals o)).
  { intros ob Hob. cbn [o o_vals]. do 5 right. cbn [In] in Hob. cbn [In]. intuition (subst; auto). }
  destruct (asdict_inv _ _ _ _ EA) as [attrs EA']. 
  pose proof (asdict_ser_ok true _ _ _ EA' eq_refl) as SO. cbn [dt_out cl_fields o_vals o firstn datatype_fields map bound_names app] in SO.
  apply F2_cc in SO. destruct SO as [S0 SO]. apply F2_cc in SO. destruct SO as [S1 SO]. apply F2_cc in SO. destruct SO as [S2 SO].
  apply F2_cc in SO. destruct SO as [S3 SO]. apply F2_cc in SO. destruct SO as [S4 SO]. apply F2_cc in SO. destruct SO as [S5 SO].
  apply F2_cc in SO. destruct SO as [S6 SO]. apply F2_cc in SO. destruct SO as [S7 SO]. apply F2_cc in SO. destruct SO as [S8 SO].
  apply F2_cc in SO. destruct SO as [S9 SO]. apply F2_cc in SO. destruct SO as [S10 _].
  destruct (bound_rebuilt o _ (fc_minimum FF) Vb (Hin (fc_minimum FF) ltac:(cbn; auto 9)) S5) as (r5 & R5 & Q5).
  destruct (bound_rebuilt o _ (fc_maximum FF) Vb (Hin (fc_maximum FF) ltac:(cbn; auto 9)) S6) as (r6 & R6 & Q6).
  destruct (bound_rebuilt o _ (fc_minInclusive FF) Vb (Hin (fc_minInclusive FF) ltac:(cbn; auto 9)) S7) as (r7 & R7 & Q7).
  destruct (bound_rebuilt o _ (fc_maxInclusive FF) Vb (Hin (fc_maxInclusive FF) ltac:(cbn; auto 9)) S8) as (r8 & R8 & Q8).
  destruct (bound_rebuilt o _ (fc_minExclusive FF) Vb (Hin (fc_minExclusive FF) ltac:(cbn; auto 9)) S9) as (r9 & R9 & Q9).
  destruct (bound_rebuilt o _ (fc_maxExclusive FF) Vb (Hin (fc_maxExclusive FF) ltac:(cbn; auto 9)) S10) as (r10 & R10 & Q10).
  assert (FV : fromvalue env (Datatype_class env) (JObj d) = Ok o).
  { rewrite <- (dt_out_fromvalue o).
    destruct (survives_nonempty _ _ _ V) as [N1 N2]. pose proof (sv_values _ _ _ _ V) as SV.
    cbn [Datatype_class cl_fields datatype_fields bound_names map app o_vals o] in SV.
    apply F2_cc in SV. destruct SV as [V0 SV]. apply F2_cc in SV. destruct SV as [V1 SV]. apply F2_cc in SV. destruct SV as [V2 SV].
    apply F2_cc in SV. destruct SV as [V3 SV]. apply F2_cc in SV. destruct SV as [V4 _].
    rewrite (rebuild env (dt_out o) true o d [MJ (JStr b); MJ fmt'; v2; v3; v4; MJ r5; MJ r6; MJ r7; MJ r8; MJ r9; MJ r10]); [|split; reflexivity| |exact N1|exact N2|exact EA|reflexivity|].
    - assert (D' : exists pat', derived env c b fmt' = Ok pat' /\
        negb (dclass_eqb c CDecimal && match pat' with Some s => negb (forallb (fun x => char_mem x pattern_chars) s) | None => false end) = true).
      { unfold fmt'. destruct keep.
        - exists pat. split; [exact Dp|symmetry; exact Kp].
        - destruct c; cbn [dclass_eqb andb negb] in Kp; try discriminate Kp. exists None. split; reflexivity. }
      destruct D' as (pat' & D1 & D2).
      cbn [dt_out cl_post datatype_post o_vals o_at o_common o_num o]. rewrite Ec.
      change (dt_base o) with b in *. change (dt_format o) with fmt' in *.
      erewrite (post_init_again (w_ops env) (w_parse env b fmt) (w_parse env b fmt') c _ _ _ _ _ FF keep pat' PI);
        cbn [fc_length fc_minLength fc_maxLength fc_minimum fc_maximum fc_minInclusive fc_maxInclusive fc_minExclusive fc_maxExclusive];
        try (symmetry; assumption); try assumption.
      rewrite D2. reflexivity.
    - constructor; try apply St.
    - cbn [dt_out cl_fields firstn datatype_fields map bound_names app o_vals o combine].
      repeat (apply Forall2_cons; [cbn [fst snd]; try assumption|]); try apply Forall2_nil.
      + unfold rebuilt, omitted. cbn [base_field fd_default equals_default py_eq num_of andb]. exists (JStr b).
        split; [reflexivity|]. cbn [is_empty].
        assert (X : converter TStr (JStr (lit "string")) true in_datatypes (JStr b) = JStr b)
          by (unfold converter; rewrite Eb; reflexivity). unfold base_field; cbn [fd_conv]; cbv zeta; rewrite X; reflexivity.
      + apply (plain_ok (fun _ _ => False) (lit "format") JNull (fun j => j)); try assumption; auto.
        * intros j' Hj. right. apply py_eq_null, Hj.
        * exists fmt'. split; [|reflexivity]. unfold fmt'. destruct keep; [exact Wf|exact I].
      + apply (int_field_ok (fun _ _ => False)); assumption.
      + apply (int_field_ok (fun _ _ => False)); assumption.
      + apply (int_field_ok (fun _ _ => False)); assumption. }
  assert (Hb : In (lit "base", JStr b) d).
  { unfold asdict in EA. rewrite EA' in EA. cbn [bind] in EA. injection EA as <-. apply filter_In. split; [|reflexivity].
    apply in_or_app; right; apply in_or_app; right.
    change (cl_fields (dt_out o)) with (base_field :: tl (cl_fields (dt_out o))) in EA'.
    change (o_vals o) with (MJ (JStr b) :: tl (o_vals o)) in EA'. rewrite asdict_attrs_cons in EA'.
    change (omitted true base_field (MJ (JStr b))) with false in EA'. cbn [base_field fd_ser ser_json bind fd_name] in EA'.
    destruct (asdict_attrs true (tl _) (tl _)) in EA'; [|discriminate EA']. injection EA' as <-. left. reflexivity. }
  assert (Hh : has (lit "base") d = true) by (apply existsb_exists; eexists; split; [exact Hb|reflexivity]).
  assert (JJ : j = JStr b /\ d = [(lit "base", JStr b)] \/ j = JObj d).
  { destruct d as [|[k v] [|kv d]]; [destruct Hb| |right; symmetry; exact E].
    destruct Hb as [Hb|[]]. injection Hb as -> ->. left. split; [symmetry; exact E|reflexivity]. }
  destruct JJ as [[-> ->]| ->].
  - rewrite dt_of_str in FV. split; [exact FV|]. split; [destruct b; [congruence|reflexivity]|discriminate].
  - cbn [datatype_fromvalue]. rewrite Hh. split; [exact FV|]. split; [destruct d; [destruct Hb|reflexivity]|discriminate].
Qed.
End Fields.
