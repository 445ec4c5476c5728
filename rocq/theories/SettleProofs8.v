(** Serialising and reading again: "@" properties and the attributes of tables and groups. *)
From Coq Require Import Sorted Permutation.
From Verif Require Import PyStr Dsv Json Dialects NatLang Datatype Column ColumnSpec Meta MetaSpec MetaProofs MetaProofs2 MetaProofs3 Descr DescrSpec DescrProofs DescrProofs2 DescrProofs3
  DescrProofs4 DescrProofs5 DescrProofs6 FromParts SettleSpec SettleProofs SettleProofs2 SettleProofs3 SettleProofs4 SettleProofs5 SettleProofs6 SettleProofs7.
From Verif Require ColumnProofs2.
Local Open Scope nat_scope.

Lemma dget_full_if (l : list (pystr * json)) k : NoDup (map fst l) ->
  dget str_eqb (filter full l) k = match dget str_eqb l k with Some v => if is_empty v then None else Some v | None => None end.
Proof.
  induction l as [|[k' v] l IH]; intros Nd; [reflexivity|]. cbn [map fst] in Nd. apply NoDup_cons_iff in Nd. destruct Nd as [N1 N2]. specialize (IH N2). cbn [filter dget]. unfold full at 1. cbn [snd].
  destruct (str_eqb k k') eqn:K.
  - apply str_eqb_eq in K. subst k'. destruct (is_empty v) eqn:E; cbn [negb]; [|cbn [dget]; rewrite str_eqb_refl; reflexivity].
    rewrite IH. destruct (dget str_eqb l k) as [w|] eqn:G; [|reflexivity]. contradiction N1. clear -G. induction l as [|[k1 v1] l IH]; [discriminate G|]. cbn [dget] in G. destruct (str_eqb k k1) eqn:Q; [left; cbn; apply str_eqb_eq in Q; congruence|right; auto].
  - destruct (negb (is_empty v)); [cbn [dget]; rewrite K; exact IH|exact IH].
Qed.

Section Settle.
Context {B : Type} (env : world B).
Notation mval := (mval B). Notation mobj := (mobj B). Notation field := (field B). Notation class := (class B).
Notation stored_ok := (stored_ok env).

(** ** "@" properties *)
Lemma at_post_fixed at2 : at_post env at2 = Ok at2 ->
  (dget str_eqb at2 (lit "id") = Some JNull -> base_of env at2 = Ok JNull) /\ (forall l, dget str_eqb at2 (lit "context") = Some (JList l) -> mapM (check_context env) l = Ok l).
Proof.
  unfold at_post, dget_at. intros H.
  assert (X : exists at1, match dget str_eqb at2 (lit "id") with Some JNull => b <- base_of env at2 ;; Ok (dset str_eqb at2 (lit "id") b) | _ => Ok at2 end = Ok at1 /\
     dget str_eqb at1 (lit "context") = dget str_eqb at2 (lit "context") /\
     (forall b, dget str_eqb at2 (lit "id") = Some JNull -> base_of env at2 = Ok b -> dget str_eqb at1 (lit "id") = Some b) /\ (dget str_eqb at2 (lit "id") = Some JNull -> exists b, base_of env at2 = Ok b)).
  { destruct (dget str_eqb at2 (lit "id")) as [[| | | | | |]|] eqn:G; try (eexists; split; [reflexivity|]; split; [reflexivity|split; intros; discriminate]).
    destruct (base_of env at2) as [b|]; [|discriminate H]. cbn [bind] in *. eexists. split; [reflexivity|]. split; [rewrite dget_dset_s; reflexivity|]. split; [|eauto].
    intros b' _ E. apply Ok_inj in E. subst b'. rewrite dget_dset_s, str_eqb_refl. reflexivity. }
  destruct X as (at1 & E1 & X1 & X2 & X3). rewrite E1 in H. cbn [bind] in H. rewrite X1 in H.
  destruct (dget str_eqb at2 (lit "context")) as [[| | | | |l|]|] eqn:G; try (apply Ok_inj in H; subst at1; split; [intros D; destruct (X3 D) as (b0 & Eb); rewrite (X2 b0 D Eb) in D; congruence|intros; congruence]).
  destruct (mapM (check_context env) l) as [l'|] eqn:M; [|discriminate H]. cbn [bind] in H. apply Ok_inj in H. split.
  - intros D. destruct (X3 D) as (b & Eb). pose proof (X2 b D Eb) as Q. rewrite <- H in D. rewrite dget_dset_s in D. change (str_eqb (lit "id") (lit "context")) with false in D. cbn [andb] in D. cbv iota in D. congruence.
  - intros m Em. injection Em as <-. rewrite <- H in G. rewrite dget_dset_s, str_eqb_refl in G. congruence.
Qed.
Lemma at_post_full at2 : NoDup (map fst at2) -> at_post env at2 = Ok at2 -> at_post env (filter full at2) = Ok (filter full at2).
Proof.
  intros Nd H. destruct (at_post_fixed at2 H) as [F1 F2]. unfold at_post, dget_at.
  assert (E1 : match dget str_eqb (filter full at2) (lit "id") with Some JNull => b <- base_of env (filter full at2) ;; Ok (dset str_eqb (filter full at2) (lit "id") b) | _ => Ok (filter full at2) end = Ok (filter full at2)).
  { destruct (dget str_eqb (filter full at2) (lit "id")) as [[| | | | | |]|] eqn:G; try reflexivity.
    assert (G' : dget str_eqb at2 (lit "id") = Some JNull). { rewrite dget_full_if in G by exact Nd. destruct (dget str_eqb at2 (lit "id")) as [v|]; [|discriminate G]. destruct (is_empty v); [discriminate G|exact G]. }
    assert (Bq : base_of env (filter full at2) = Ok JNull).
    { specialize (F1 G'). unfold base_of, dget_at in *. rewrite !dget_full_if by exact Nd.
      assert (Cx : match match dget str_eqb at2 (lit "context") with Some v => if is_empty v then None else Some v | None => None end with
                   | None | Some (JStr _) | Some (JObj _) => Ok JNull | Some (JList l) => Ok (fold_left ctx_base l JNull) | Some _ => Err TypeError end =
                   match dget str_eqb at2 (lit "context") with
                   | None | Some (JStr _) | Some (JObj _) => Ok JNull | Some (JList l) => Ok (fold_left ctx_base l JNull) | Some _ => Err TypeError end).
      { destruct (dget str_eqb at2 (lit "context")) as [[| | | | |[|x l]|[|x l]]|]; reflexivity. }
      rewrite Cx. destruct (match dget str_eqb at2 (lit "context") with None | Some (JStr _) | Some (JObj _) => Ok JNull | Some (JList l) => Ok (fold_left ctx_base l JNull) | Some _ => Err TypeError end) as [cb|]; [|discriminate F1].
      cbn [bind] in *. destruct (dget str_eqb at2 (lit "base")) as [b|]; [|reflexivity]. destruct (is_empty b); [reflexivity|exact F1]. }
    rewrite Bq. cbn [bind]. rewrite dset_same by exact G. reflexivity. }
  rewrite E1. cbn [bind]. destruct (dget str_eqb (filter full at2) (lit "context")) as [[| | | | |l|]|] eqn:G; try reflexivity.
  assert (G' : dget str_eqb at2 (lit "context") = Some (JList l)). { rewrite dget_full_if in G by exact Nd. destruct (dget str_eqb at2 (lit "context")) as [v|]; [|discriminate G]. destruct (is_empty v); [discriminate G|exact G]. }
  rewrite (F2 l G'). cbn [bind]. rewrite dset_same by exact G. reflexivity.
Qed.
Lemma check_context_wf j j' : wf_json j -> check_context env j = Ok j' -> wf_json j'.
Proof.
  intros W H. destruct j as [| | | |s| |kvs]; unfold check_context in H; try (apply Ok_inj in H; subst j'; exact W).
  - destruct (str_eqb s _); [|discriminate H]. apply Ok_inj in H. subst j'. exact W.
  - destruct (negb _); [discriminate H|]. destruct (dget str_eqb kvs (lit "@language")) as [[| | | |s| |]|]; try discriminate H; [|apply Ok_inj in H; subst j'; exact W].
    destruct (w_tag_ok env s); apply Ok_inj in H; subst j'; [exact W|]. apply wf_obj in W. destruct W as [W1 W2]. apply wf_obj. split; [apply NoDup_filter_fst, W1|]. intros k v Hin. apply filter_In in Hin. eapply W2, Hin.
Qed.
Lemma at_post_wf at_ at2 : (forall k v, In (k, v) at_ -> wf_json v) -> (forall j, In (lit "id", j) at2 -> wf_json j) -> at_post env at_ = Ok at2 -> forall k v, In (k, v) at2 -> wf_json v.
Proof.
  intros Wa Wi H k v Hin. destruct (str_eq_dec k (lit "id")) as [->|Nid]; [apply Wi, Hin|]. unfold at_post, dget_at in H.
  destruct (match dget str_eqb at_ (lit "id") with Some JNull => _ | _ => _ end) as [at1|] eqn:E1; [|discriminate H]. cbn [bind] in H.
  assert (I1 : forall k v, In (k, v) at1 -> k = lit "id" \/ In (k, v) at_).
  { intros k' v' H'. destruct (dget str_eqb at_ (lit "id")) as [[| | | | | |]|]; try (apply Ok_inj in E1; subst at1; auto).
    destruct (base_of env at_) as [b|]; [|discriminate E1]. cbn [bind] in E1. apply Ok_inj in E1. subst at1. apply dset_In in H'. destruct H' as [[-> _]|H']; auto. }
  assert (W1 : forall k v, k <> lit "id" -> In (k, v) at1 -> wf_json v) by (intros k' v' D H'; apply I1 in H'; destruct H' as [H'|H']; [contradiction|eapply Wa, H']).
  destruct (dget str_eqb at1 (lit "context")) as [[| | | | |l|]|] eqn:G; try (apply Ok_inj in H; subst at2; eapply W1; eassumption).
  destruct (mapM (check_context env) l) as [l'|] eqn:M; [|discriminate H]. cbn [bind] in H. apply Ok_inj in H. subst at2. apply dset_In in Hin. destruct Hin as [[-> ->]|Hin]; [|eapply W1; eassumption].
  apply wf_list. assert (Wl : wf_json (JList l)).
  { assert (Hl : In (lit "context", JList l) at1) by (clear -G; induction at1 as [|[k1 v1] a IH]; [discriminate G|]; cbn [dget] in G; destruct (str_eqb (lit "context") k1) eqn:Q; [apply str_eqb_eq in Q; left; congruence|right; auto]).
    eapply W1; [|exact Hl]. discriminate. }
  pose proof (proj1 (wf_list l) Wl) as Wl'. apply mapM_Forall2 in M. clear -M Wl'. intros x Hx. induction M as [|a b l l' Hab M IH]; [destruct Hx|]. destruct Hx as [<-|Hx]; [eapply check_context_wf; [apply Wl'; left; reflexivity|exact Hab]|].
  apply IH; [intros u Hu; apply Wl'; right; exact Hu|exact Hx].
Qed.
End Settle.
