(** Serialising and reading again: schemas. *)
From Coq Require Import Sorted Permutation.
From Verif Require Import PyStr Dsv Json Dialects NatLang Datatype Column ColumnSpec Meta MetaSpec MetaProofs MetaProofs2 MetaProofs3 Descr DescrSpec DescrProofs DescrProofs2 DescrProofs3 FromParts
  SettleSpec SettleProofs SettleProofs2 SettleProofs3 SettleProofs4 SettleProofs5.
From Verif Require ColumnProofs2.
Local Open Scope nat_scope.

Section Settle.
Context {B : Type} (env : world B).
Notation mval := (mval B). Notation mobj := (mobj B). Notation field := (field B). Notation class := (class B).
Notation stored_ok := (stored_ok env).

(** ** lists of descriptions *)
Definition written_list (C : class) (l : list mobj) : res (list json) := mapM (fun o => d <- asdict C true o ;; Ok (JObj d)) l.
Lemma list_settles (C : class) (K S : mobj -> Prop) (R : mobj -> mobj -> Prop) :
  (forall d o d', wf_json d -> fromvalue env C d = Ok o -> K o -> asdict C true o = Ok d' ->
     exists j o', wf_json (JObj j) /\ fromvalue env C (JObj j) = Ok o' /\ asdict C true o' = Ok d' /\ S o' /\ R o o') ->
  forall ds l js, Forall wf_json ds -> Forall2 (fun d o => fromvalue env C d = Ok o) ds l -> Forall K l -> written_list C l = Ok js ->
  exists ks l', Forall wf_json (map JObj ks) /\ Forall2 (fun k o => fromvalue env C (JObj k) = Ok o) ks l' /\ written_list C l' = Ok js /\ Forall S l' /\ Forall2 R l l'.
Proof.
  intros One ds l js W F. revert js W. induction F as [|d o ds l H F IH]; intros js W Kl E.
  - exists [], []. apply Ok_inj in E. subst js. repeat split; constructor.
  - apply Forall_cons_iff in W, Kl. destruct W as [W1 W2], Kl as [K1 K2]. unfold written_list in E. cbn [mapM] in E.
    destruct (asdict C true o) as [d'|] eqn:Ed; [|discriminate E]. cbn [bind] in E. destruct (mapM _ l) as [js'|] eqn:El; [|discriminate E]. cbn [bind] in E. apply Ok_inj in E. subst js.
    destruct (One d o d' W1 H K1 Ed) as (k & o' & A1 & A2 & A3 & A4 & A5). destruct (IH js' W2 K2 El) as (ks & l' & B1 & B2 & B3 & B4 & B5).
    exists (k :: ks), (o' :: l'). cbn [map]. split; [constructor; assumption|]. split; [constructor; assumption|]. split; [|split; constructor; assumption].
    unfold written_list in *. cbn [mapM]. rewrite A3. cbn [bind]. rewrite B3. reflexivity.
Qed.
Lemma wf_objs ks : Forall wf_json (map JObj ks) -> wf_json (JList (map JObj ks)).
Proof. intros H. apply wf_list. apply Forall_forall, H. Qed.
Lemma written_numbered (C : class) l : forall i, written_list C (number_from i l) = written_list C l.
Proof.
  unfold written_list. induction l as [|[n c a v] l IH]; intros i; [reflexivity|]. cbn [number_from mapM]. rewrite (asdict_num C true (Some (Datatypes.S i)) n c a v).
  destruct (asdict C true (MO n c a v)); [|reflexivity]. cbn [bind]. rewrite IH. reflexivity.
Qed.
Lemma numbered_rel (R : mobj -> mobj -> Prop) : (forall n n' m c a v c' a' v', R (MO n c a v) (MO n' c' a' v') -> R (MO m c a v) (MO m c' a' v')) ->
  forall l l', Forall2 R l l' -> forall i, Forall2 R (number_from i l) (number_from i l').
Proof. intros H l l' F. induction F as [|[n c a v] [n' c' a' v'] l l' X F IH]; intros i; [constructor|]. cbn [number_from]. constructor; [eapply H, X|apply IH]. Qed.
Lemma numbered_all (P : mobj -> Prop) : (forall n m c a v, P (MO n c a v) -> P (MO m c a v)) -> forall l i, Forall P (number_from i l) <-> Forall P l.
Proof.
  intros H. induction l as [|[n c a v] l IH]; intros i; [split; constructor|]. cbn [number_from]. rewrite !Forall_cons_iff, IH. split; intros [H1 H2]; (split; [eapply H, H1|exact H2]).
Qed.
Lemma settled_renum sub (C : class) n n' m c a v c' a' v' : obj_settled env sub C (MO n c a v) (MO n' c' a' v') -> obj_settled env sub C (MO m c a v) (MO m c' a' v').
Proof. intros [_ H2 H3 H4]. constructor; [reflexivity|exact H2|exact H3|exact H4]. Qed.
Lemma survives_renum sub (C : class) n m c a v : obj_survives env sub C (MO n c a v) -> obj_survives env sub C (MO m c a v).
Proof. intros [H1 H2 H3 H4]. constructor; assumption. Qed.
Lemma contributes_app (fs gs : list field) vs ws rs : length fs = length vs -> contributes (fs ++ gs) (vs ++ ws) rs ->
  exists r1 r2, rs = r1 ++ r2 /\ contributes fs vs r1 /\ contributes gs ws r2.
Proof. unfold contributes. intros L H. rewrite combine_app in H by exact L. apply F2_app_inv in H. exact H. Qed.
Lemma app_contributes (fs gs : list field) vs ws r1 r2 : length fs = length vs -> contributes fs vs r1 -> contributes gs ws r2 -> contributes (fs ++ gs) (vs ++ ws) (r1 ++ r2).
Proof. unfold contributes. intros L H1 H2. rewrite combine_app by exact L. apply Forall2_app; assumption. Qed.

(** ** columns *)
Lemma dict_items_wf j : wf_json j -> Forall wf_json (dict_items (match j with JList l => l | _ => [] end)).
Proof.
  intros Wj. apply Forall_forall. intros u Hu. unfold dict_items in Hu. apply in_flat_map in Hu. destruct Hu as (w & Hw & Hu).
  destruct (conv_dict w) as [y|] eqn:Ey; [|destruct Hu]. destruct Hu as [<-|[]]. eapply conv_dict_wf; [|exact Ey]. destruct j as [| | | | |l|]; try destruct Hw. exact (proj1 (wf_list l) Wj w Hw).
Qed.
Lemma column_length d o : wf_json d -> fromvalue env (Column_class env) d = Ok o -> length (o_vals o) = 15.
Proof.
  intros W H. destruct (fromvalue_parts env _ _ _ W (column_wf env) H) as (common & at_ & vals & _ & _ & F & P). cbn [Column_class cl_post] in P. apply Ok_inj in P. subst o.
  symmetry. exact (Forall2_length _ _ _ F).
Qed.
Lemma columns_settle cols js : converted (columns_field env) (MObjs cols) -> Forall (column_keeps env) cols -> written_list (Column_class env) cols = Ok js ->
  exists cols', converted (columns_field env) (MObjs cols') /\ written_list (Column_class env) cols' = Ok js /\ Forall (column_survives env) cols' /\ Forall2 (column_settled env) cols cols' /\
    Forall2 seen_alike (number_from 0 cols) (number_from 0 cols') /\ Forall2 seen_alike cols cols'.
Proof.
  intros (j & Wj & Hc) K E. cbn [columns_field fd_conv] in Hc. destruct (mapM _ (dict_items _)) as [cols0|] eqn:M; [|discriminate Hc]. cbn [bind] in Hc.
  assert (cols0 = cols) by congruence. subst cols0. clear Hc. apply mapM_Forall2 in M.
  destruct (list_settles (Column_class env) (column_keeps env) (column_survives env) (column_settled env)) with (ds := dict_items (match j with JList l => l | _ => [] end)) (l := cols) (js := js)
    as (ks & cols' & B1 & B2 & B3 & B4 & B5); try assumption.
  - intros d o d' W H Ko Ed. destruct (column_settles env d o d' W H Ko Ed) as (k & o' & A1 & A2 & A3 & A4 & A5). exists k, o'. auto.
  - apply dict_items_wf, Wj.
  - assert (A : Forall2 seen_alike cols cols').
    { pose proof (dict_items_wf j Wj) as Wd. clear -M B5 Wd. revert cols' B5. induction M as [|d c ds cs H M IH]; intros cols' B5; [apply F2_nil in B5; subst; constructor|].
      apply F2_cons in B5. destruct B5 as (c' & cs' & -> & S1 & S2). apply Forall_cons_iff in Wd. constructor; [|apply IH; tauto].
      apply (column_alike env); [|exact S1]. eapply column_length; [|exact H]. apply Wd. }
    exists cols'. split.
    { exists (JList (map JObj ks)). split; [apply wf_objs, B1|]. cbn [columns_field fd_conv]. rewrite dict_items_objs.
      assert (X : mapM (fromvalue env (Column_class env)) (map JObj ks) = Ok cols') by (apply mapM_Forall2; clear -B2; induction B2; constructor; assumption). rewrite X. reflexivity. }
    split; [exact B3|]. split; [exact B4|]. split; [exact B5|]. split; [|exact A]. apply numbered_rel; [|exact A]. intros n n' m c a v c' a' v' [X1 X2 X3 X4]. constructor; [reflexivity|exact X2|exact X3|exact X4].
Qed.
End Settle.
