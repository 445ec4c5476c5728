(** What add_foreign_key makes (C68). *)
From Coq Require Import Permutation Lia.
From Verif Require Import PyStr Dsv Json Dialects NatLang Datatype Meta MetaSpec MetaProofs MetaProofs2 MetaProofs3 DsvProofs4 Descr DescrSpec DescrProofs DescrProofs2 DescrProofs3 DescrProofs4 DescrProofs5
  FromParts DescribeSpec AddKey AddKeySpec AddKeyProofs.
Local Open Scope nat_scope.

Definition wf_carg (c : carg) : Prop := match c with CJson j => wf_json j | CTuple l => wf_json (JList l) end.
Lemma wf_own_list c : wf_carg c -> wf_json (own_list c).
Proof. destruct c as [[| | | | | |]|]; intros H; try exact H; apply wf_list; intros x [<-|[]]; exact H || exact I. Qed.
Lemma wf_colref_list c : wf_carg c -> wf_json (colref_list c).
Proof. destruct c as [[| | | | | |]|]; intros H; try exact H; apply wf_list; intros x [<-|[]]; exact H || exact I. Qed.

Lemma F2_nth {A X} (R : A -> X -> Prop) (d : A) (e : X) : forall n fs l, Forall2 R fs l -> n < length l -> R (nth n fs d) (nth n l e).
Proof. induction n as [|n IH]; intros fs l F L; destruct F as [|f x fs l Rx F]; cbn in *; try lia; [exact Rx|]. apply IH; [exact F|lia]. Qed.
Section AddKey.
Context {B : Type} (W : world B).
Notation mobj := (mobj B).
Hypothesis fetched : forall s j, w_fetch_schema W s = Some j -> wf_json j.
Definition key_dict (cols : carg) (resource : json) (refcols : carg) : list (pystr * json) :=
  [(lit "columnReference", own_list cols); (lit "reference", JObj [(lit "resource", resource); (lit "columnReference", colref_list refcols)])].
Lemma wf_key cols resource refcols : wf_carg cols -> wf_json resource -> wf_carg refcols -> wf_json (JObj (key_dict cols resource refcols)).
Proof.
  intros W1 W2 W3. assert (D : forall a b : json, wf_json a -> wf_json b -> forall k l, k <> l -> wf_json (JObj [(k, a); (l, b)])).
  { intros a b Wa Wb k l Nk. apply wf_obj. split; [repeat constructor; cbn; intuition congruence|]. intros k' v [X|[X|[]]]; injection X as <- <-; assumption. }
  apply D; [apply wf_own_list, W1| |discriminate]. apply D; [exact W2|apply wf_colref_list, W3|discriminate].
Qed.
Lemma add_inv (t t' : mobj) cols resource refcols : add_foreign_key t cols resource refcols = Ok t' ->
  exists s cs ks k, nth 14 (o_vals t) (MJ JNull) = MObj s /\ nth 11 (o_vals s) (MJ JNull) = MObjs cs /\ nth 12 (o_vals s) (MJ JNull) = MFks ks /\
    forallb (fun c => existsb (fun n => py_eq c n) (map col_name cs)) (colref_items cols) = true /\ fkey_of (key_dict cols resource refcols) = Ok k /\
    t' = put_val 14 (MObj (put_val 12 (MFks (ks ++ [k])) s)) t.
Proof.
  unfold add_foreign_key. destruct (nth 14 (o_vals t) _) as [| | | | | | | |s|]; try discriminate.
  destruct (nth 11 (o_vals s) _) as [| | | | | | | | |cs] eqn:E1; try discriminate. destruct (nth 12 (o_vals s) _) as [| | | | | | |ks| |] eqn:E2; try discriminate.
  destruct (forallb _ _) eqn:Ef; [|discriminate]. fold (key_dict cols resource refcols). destruct (fkey_of _) as [k|] eqn:Ek; [|discriminate]. cbn [bind]. intros H. apply Ok_inj in H. subst t'.
  exists s, cs, ks, k. repeat split; auto.
Qed.
Lemma table_schema_of d (t s : mobj) : wf_json d -> fromvalue W (Table_class W) d = Ok t -> nth 14 (o_vals t) (MJ JNull) = MObj s ->
  exists ds, wf_json ds /\ fromvalue W (Schema_class W) ds = Ok s.
Proof.
  intros Wd H E. destruct (table_parts W d t Wd H) as (common & at_ & at2 & vals & St & Wa & F & L & Lt & _ & _ & _ & E14 & _).
  rewrite E14 in E. assert (C : converted (schema_field W) (MObj s)).
  { rewrite <- E. apply (F2_nth converted (schema_field W) (MJ JNull) 14 (cl_fields (Table_class W)) vals F). rewrite L. lia. }
  destruct C as (j & Wj & C). eapply schema_from; eassumption.
Qed.
(** it is a table that can be read *)
Theorem added_read d (t t' : mobj) cols resource refcols : wf_carg cols -> wf_json resource -> wf_carg refcols ->
  wf_json d -> fromvalue W (Table_class W) d = Ok t -> add_foreign_key t cols resource refcols = Ok t' ->
  exists d', wf_json (JObj d') /\ fromvalue W (Table_class W) (JObj d') = Ok t'.
Proof.
  intros W1 W2 W3 Wd H A. destruct (add_inv _ _ _ _ _ A) as (s & cs & ks & k & Es & Ec & Ek & _ & Hk & ->).
  destruct (table_schema_of d t s Wd H Es) as (ds & Wds & Hs).
  destruct (table_parts W d t Wd H) as (common & at_ & at2 & vals & St & Wa & F & L & Lt & _ & _ & _ & E14 & Pt).
  destruct (schema_parts W ds s Wds Hs) as (common' & at' & vals' & St' & Wa' & F' & L' & Ls & _ & E12 & Ps).
  assert (Ck : converted (@fkeys_field B) (MFks ks)).
  { rewrite <- Ek, E12. apply (F2_nth converted (@fkeys_field B) (MJ JNull) 12 (cl_fields (Schema_class W)) vals' F'). rewrite L'. lia. }
  pose proof (one_more ks k _ Ck (wf_key _ _ _ W1 W2 W3) Hk) as Ck'.
  assert (Fs : Forall2 converted (cl_fields (Schema_class W)) (put 12 (MFks (ks ++ [k])) vals')).
  { apply (put_F2 converted (@fkeys_field B)); [exact F'|rewrite L'; lia|exact Ck']. }
  destruct (from_parts W (Schema_class W) common' at' (put 12 (MFks (ks ++ [k])) vals') _ (schema_names W) St' Wa' Fs (Ps (MFks (ks ++ [k])))) as (ds' & Wds' & Hs').
  refine (from_parts W (Table_class W) common at_ (put 14 (MObj (put_val 12 (MFks (ks ++ [k])) s)) vals) _ (table_names W) St Wa _ (Pt _)).
  apply (put_F2 converted (schema_field W)); [exact F|rewrite L; lia|]. exists (JObj ds'). split; [exact Wds'|].
  change (schema_fromvalue W (JObj ds') = Ok (MObj (put_val 12 (MFks (ks ++ [k])) s))). unfold schema_fromvalue. rewrite Hs'. reflexivity.
Qed.
(** it survives serialisation as the table does *)
Lemma put_survives sub sub' (C : class B) i v (o : mobj) f : obj_survives W sub C o -> i < length (o_vals o) -> (forall f x, value_survives W sub f x -> value_survives W sub' f x) ->
  value_survives W sub' (nth i (cl_fields C) f) v -> obj_survives W sub' C (put_val i v o).
Proof.
  intros [S1 S2 S3 S4] L M V. constructor; try assumption. unfold put_val. cbn [o_vals]. apply (put_F2 _ f); [|exact L|exact V].
  clear -S4 M. induction S4; constructor; auto.
Qed.
Theorem added_survives d (t t' : mobj) cols resource refcols : wf_json d -> fromvalue W (Table_class W) d = Ok t -> add_foreign_key t cols resource refcols = Ok t' ->
  table_survives W t -> table_survives W t'.
Proof.
  intros Wd H A V. destruct (add_inv _ _ _ _ _ A) as (s & cs & ks & k & Es & Ec & Ek & _ & Hk & ->).
  destruct (table_parts W d t Wd H) as (common & at_ & at2 & vals & _ & _ & _ & _ & Lt & _).
  destruct (table_schema_of d t s Wd H Es) as (ds & Wds & Hs). destruct (schema_parts W ds s Wds Hs) as (common' & at' & vals' & _ & _ & _ & _ & Ls & _).
  assert (Vs : schema_survives W s).
  { pose proof (sv_values _ _ _ _ V) as Vv. pose proof (F2_nth _ (schema_field W) (MJ JNull) 14 _ _ Vv) as X. rewrite Lt in X. specialize (X ltac:(lia)). rewrite Es in X.
    cbn in X. destruct X as [[_ X]|[X _]]; [exact X|discriminate X]. }
  apply (put_survives _ _ _ _ _ _ (schema_field W) V); [rewrite Lt; lia|auto|]. cbn. left. split; [reflexivity|].
  apply (put_survives _ _ _ _ _ _ (schema_field W) Vs); [rewrite Ls; lia|auto|]. exact I.
Qed.
(** it can be serialised if the table can *)
Lemma ser_put omit : forall i (fs : list (field B)) f v ws a, length fs = length ws -> i < length ws -> asdict_attrs omit fs ws = Ok a -> (exists j, fd_ser (nth i fs f) omit v = Ok j) -> exists a', asdict_attrs omit fs (put i v ws) = Ok a'.
Proof.
  induction i as [|i IH]; intros [|g fs] f v [|w ws] a L Li E (j & Ej); cbn in L, Li; try lia; [change (put 0 v (w :: ws)) with (v :: ws)|change (put (S i) v (w :: ws)) with (w :: put i v ws)]; rewrite asdict_attrs_cons in E |- *.
  - cbn [nth] in Ej. assert (R : exists r, asdict_attrs omit fs ws = Ok r).
    { destruct (omitted omit g w); [eauto|]. destruct (fd_ser g omit w); [|discriminate E]. cbn [bind] in E. destruct (asdict_attrs omit fs ws) as [r|]; [eauto|discriminate E]. }
    destruct R as (r & R). rewrite R. destruct (omitted omit g v); [eauto|]. rewrite Ej. cbn [bind]. eauto.
  - destruct (omitted omit g w).
    + eapply IH; [lia|lia|exact E|eauto].
    + destruct (fd_ser g omit w) as [jw|]; [|discriminate E]. cbn [bind] in E |- *. destruct (asdict_attrs omit fs ws) as [r|] eqn:R; [|discriminate E].
      destruct (IH fs f v ws r ltac:(lia) ltac:(lia) R (ex_intro _ j Ej)) as (a' & Ea). rewrite Ea. cbn [bind]. eauto.
Qed.
Lemma ser_nth omit : forall i (fs : list (field B)) f w ws a, length fs = length ws -> i < length ws -> asdict_attrs omit fs ws = Ok a ->
  omitted omit (nth i fs f) (nth i ws w) = true \/ exists j, fd_ser (nth i fs f) omit (nth i ws w) = Ok j.
Proof.
  induction i as [|i IH]; intros [|g fs] f w [|x ws] a L Li E; cbn in L, Li; try lia; rewrite asdict_attrs_cons in E; cbn [nth].
  - destruct (omitted omit g x); [auto|]. right. destruct (fd_ser g omit x) as [j|]; [eauto|discriminate E].
  - assert (R : exists r, asdict_attrs omit fs ws = Ok r).
    { destruct (omitted omit g x); [eauto|]. destruct (fd_ser g omit x); [|discriminate E]. cbn [bind] in E. destruct (asdict_attrs omit fs ws) as [r|]; [eauto|discriminate E]. }
    destruct R as (r & R). eapply IH; [lia|lia|exact R].
Qed.
Lemma put_serialised (C : class B) omit i v (o : mobj) f a : length (cl_fields C) = length (o_vals o) -> i < length (o_vals o) -> asdict C omit o = Ok a -> (exists j, fd_ser (nth i (cl_fields C) f) omit v = Ok j) ->
  exists a', asdict C omit (put_val i v o) = Ok a'.
Proof.
  intros L Li E X. unfold asdict in E |- *. cbn [put_val o_at o_common o_vals] in *. destruct (asdict_attrs omit (cl_fields C) (o_vals o)) as [r|] eqn:R; [|discriminate E].
  destruct (ser_put omit i _ f v _ r L Li R X) as (a' & Ea). rewrite Ea. cbn [bind]. eauto.
Qed.
Theorem added_serialised omit d (t t' : mobj) cols resource refcols a : wf_json d -> fromvalue W (Table_class W) d = Ok t -> add_foreign_key t cols resource refcols = Ok t' ->
  asdict (Table_class W) omit t = Ok a -> exists a', asdict (Table_class W) omit t' = Ok a'.
Proof.
  intros Wd H A E. destruct (add_inv _ _ _ _ _ A) as (s & cs & ks & k & Es & Ec & Ek & _ & Hk & ->).
  destruct (table_parts W d t Wd H) as (common & at_ & at2 & vals & _ & _ & _ & _ & Lt & _).
  destruct (table_schema_of d t s Wd H Es) as (ds & Wds & Hs). destruct (schema_parts W ds s Wds Hs) as (common' & at' & vals' & _ & _ & _ & _ & Ls & _).
  assert (Lf : length (cl_fields (Table_class W)) = length (o_vals t)) by (rewrite Lt; reflexivity).
  eapply (put_serialised _ omit 14 _ t (schema_field W) a); [exact Lf|rewrite Lt; lia|exact E|].
  assert (R : exists r, asdict_attrs omit (cl_fields (Table_class W)) (o_vals t) = Ok r) by (unfold asdict in E; destruct (asdict_attrs omit (cl_fields (Table_class W)) (o_vals t)); [eauto|discriminate E]).
  destruct R as (r & R). pose proof (ser_nth omit 14 _ (schema_field W) (MJ JNull) _ r Lf ltac:(rewrite Lt; lia) R) as X. rewrite Es in X.
  change (nth 14 (cl_fields (Table_class W)) (schema_field W)) with (schema_field W) in *. destruct X as [X|(j & X)].
  { unfold omitted in X. cbn in X. rewrite andb_false_r in X. discriminate X. }
  cbn [schema_field fd_ser] in X |- *. destruct (asdict (Schema_class W) true s) as [ds0|] eqn:E0; [|discriminate X].
  destruct (put_serialised (Schema_class W) true 12 (MFks (ks ++ [k])) s (@fkeys_field B) ds0) as (a' & Ea); [rewrite Ls; reflexivity|rewrite Ls; lia|exact E0|eexists; reflexivity|].
  rewrite Ea. cbn [bind]. eauto.
Qed.
End AddKey.
