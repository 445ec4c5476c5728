(** Serialising and reading again: what a schema sees of its columns is the same. *)
From Coq Require Import Sorted Permutation.
From Verif Require Import PyStr Dsv Json Dialects NatLang Datatype Column ColumnSpec Meta MetaSpec Descr DescrSpec DescrProofs DescrProofs2 DescrProofs3 FromParts
  SettleSpec SettleProofs SettleProofs2 SettleProofs3 SettleProofs4.
Local Open Scope nat_scope.

Lemma py_eq_false j : py_eq j (JBool false) = true -> truthy j = false.
Proof. destruct j as [|[]|z|r|s|l|l]; cbn [py_eq num_of]; try discriminate; [reflexivity|]. intros H. apply Z.eqb_eq in H. subst z. reflexivity. Qed.
Lemma F2_nth {X Y Z} (R : X * Y -> Z -> Prop) : forall (a : list X) (b : list Y) (c : list Z), Forall2 R (combine a b) c -> forall n x y, nth_error a n = Some x -> nth_error b n = Some y ->
  exists z, nth_error c n = Some z /\ R (x, y) z.
Proof.
  induction a as [|x a IH]; intros [|y b] c F [|n] x' y' E1 E2; try discriminate E1; try discriminate E2; cbn [combine] in F; apply F2_cons in F; destruct F as (z & c' & -> & F1 & F2).
  - cbn in E1, E2. injection E1 as <-. injection E2 as <-. exists z. auto.
  - cbn [nth_error] in *. eapply IH; eauto.
Qed.

Section Settle.
Context {B : Type} (env : world B).
Notation mval := (mval B). Notation mobj := (mobj B). Notation field := (field B). Notation class := (class B).

Record seen_alike (c c' : mobj) : Prop := {
  sa_num : o_num c' = o_num c;
  sa_virtual : col_virtual c' = col_virtual c;
  sa_name : col_name c' = col_name c \/ col_name c' = JNull /\ empty_json (col_name c);
  sa_header : forall num h, col_header num c = Ok h -> col_header num c' = Ok h;
}.
Lemma settled_attr sub (C : class) o o' n f : obj_settled env sub C o o' -> length (cl_fields C) = length (o_vals o) -> nth_error (cl_fields C) n = Some f ->
  value_settled env sub f (col_attr o n) (col_attr o' n).
Proof.
  intros [_ _ _ F] L E. assert (Hn : n < length (o_vals o)) by (rewrite <- L; apply nth_error_Some; congruence).
  destruct (nth_error (o_vals o) n) as [v|] eqn:Ev; [|apply nth_error_Some in Hn; contradiction].
  destruct (F2_nth _ _ _ _ F n f v E Ev) as (v' & E' & X). unfold col_attr. rewrite (nth_error_nth _ _ _ Ev), (nth_error_nth _ _ _ E'). exact X.
Qed.
Lemma column_alike c c' : length (o_vals c) = 15 -> column_settled env c c' -> seen_alike c c'.
Proof.
  intros L S. assert (Lf : length (cl_fields (Column_class env)) = length (o_vals c)) by (rewrite L; reflexivity).
  pose proof (settled_attr _ _ _ _ 11 (plain (lit "name") JNull (converter TStr JNull true no_cond)) S Lf eq_refl) as Sn.
  pose proof (settled_attr _ _ _ _ 13 (titles_field env) S Lf eq_refl) as St.
  pose proof (settled_attr _ _ _ _ 14 (plain (lit "virtual") (JBool false) (converter TBool (JBool false) false no_cond)) S Lf eq_refl) as Sv.
  assert (N : col_name c' = col_name c \/ col_name c' = JNull /\ empty_json (col_name c)).
  { unfold col_name. destruct Sn as [[Nw ->]|[_ Sn]].
    - cbn [plain fd_default]. destruct (col_attr c 11); cbn [not_written] in Nw; try contradiction; try (left; reflexivity).
      destruct Nw as [[Nw _]|Nw]; [auto|]. cbn [plain fd_default] in Nw. apply py_eq_null in Nw. subst j. left; reflexivity.
    - left. destruct (col_attr c 11); try (rewrite Sn; reflexivity); destruct Sn as (? & -> & _); reflexivity. }
  assert (T : col_titles c' = col_titles c \/ col_titles c' = None /\ (col_titles c = Some [] \/ col_titles c = Some [(None, [])])).
  { unfold col_titles. destruct St as [[Nw ->]|[_ St]].
    - cbn [titles_field fd_default]. destruct (col_attr c 13); cbn [not_written] in Nw; try contradiction; try (left; reflexivity). right. split; [reflexivity|]. destruct Nw as [->| ->]; auto.
    - left. destruct (col_attr c 13); try (rewrite St; reflexivity); destruct St as (? & -> & _); reflexivity. }
  constructor; [apply (os_num _ _ _ _ _ S)| |exact N|].
  - unfold col_virtual. destruct Sv as [[Nw ->]|[_ Sv]].
    + cbn [plain fd_default truthy]. destruct (col_attr c 14); cbn [not_written] in Nw; try contradiction; try reflexivity.
      destruct Nw as [[[->| ->] _]|Nw]; try reflexivity. cbn [plain fd_default] in Nw. symmetry. apply py_eq_false, Nw.
    + destruct (col_attr c 14); try (rewrite Sv; reflexivity); destruct Sv as (? & -> & _); reflexivity.
  - intros num h H. unfold col_header in *.
    assert (T2 : forall t, match col_titles c with None | Some [] => Ok None | Some nl => nl_getfirst nl None end = Ok t ->
      match col_titles c' with None | Some [] => Ok None | Some nl => nl_getfirst nl None end = Ok t).
    { intros t. destruct T as [->|[-> [->| ->]]]; auto. cbn. discriminate. }
    destruct N as [->|[-> N]].
    + destruct (col_name c) as [| | | |[|x n]| |]; try exact H;
      (destruct (match col_titles c with None | Some [] => Ok None | Some nl => nl_getfirst nl None end) as [t|] eqn:Et; [|discriminate H]; rewrite (T2 t eq_refl); exact H).
    + destruct N as [N|N]; rewrite N in H;
      (destruct (match col_titles c with None | Some [] => Ok None | Some nl => nl_getfirst nl None end) as [t|] eqn:Et; [|discriminate H]; rewrite (T2 t eq_refl); exact H).
Qed.

Lemma cols_ok_alike : forall cols cols', Forall2 seen_alike cols cols' -> forall virtual names, cols_ok virtual names cols = Ok tt -> cols_ok virtual names cols' = Ok tt.
Proof.
  induction 1 as [|c c' cols cols' [_ Hv Hn Hh] F IH]; intros virtual names H; [exact H|]. cbn [cols_ok] in *. rewrite Hv.
  assert (L : match col_name c' with JList (_ :: _) => true | _ => false end = false).
  { destruct (match col_name c with JList (_ :: _) => true | _ => false end) eqn:E; [discriminate H|]. destruct Hn as [->|[-> _]]; [exact E|reflexivity]. }
  rewrite L. destruct (match col_name c with JList (_ :: _) => true | _ => false end); [discriminate H|].
  destruct (negb (col_virtual c) && virtual); [discriminate H|]. destruct (virtual || col_virtual c); [apply IH, H|].
  destruct (col_header None c) as [h|] eqn:E; [|discriminate H]. rewrite (Hh None h E). cbn [bind] in *.
  destruct Hn as [->|[-> [N|N]]].
  - destruct (col_name c) as [| | | |[|x n]| |]; try (apply IH, H). destruct (str_mem _ names); [discriminate H|]. apply IH, H.
  - rewrite N in H. apply IH, H.
  - rewrite N in H. apply IH, H.
Qed.
Definition entry_alike (p q : pystr * mobj) : Prop := fst p = fst q /\ seen_alike (snd p) (snd q).
Lemma dset_alike d d' k c c' : Forall2 entry_alike d d' -> seen_alike c c' -> Forall2 entry_alike (dset str_eqb d k c) (dset str_eqb d' k c').
Proof.
  intros F. induction F as [|[k1 v1] [k2 v2] d d' [E X] F IH]; intros S; cbn [dset]; [constructor; [split; [reflexivity|exact S]|constructor]|]. cbn [fst snd] in *. subst k2.
  destruct (str_eqb k k1); constructor; try assumption; try (split; [reflexivity|assumption]). apply IH, S.
Qed.
Lemma dset_all_alike : forall kvs kvs', Forall2 entry_alike kvs kvs' -> forall d d', Forall2 entry_alike d d' -> Forall2 entry_alike (dset_all str_eqb d kvs) (dset_all str_eqb d' kvs').
Proof.
  unfold dset_all. induction 1 as [|[k v] [k' v'] kvs kvs' [E X] F IH]; intros d d' G; [exact G|]. cbn [fold_left fst snd] in *. subst k'. apply IH. apply dset_alike; assumption.
Qed.
Lemma dget_alike d d' k : Forall2 entry_alike d d' ->
  match dget str_eqb d k with None => dget str_eqb d' k = None | Some c => exists c', dget str_eqb d' k = Some c' /\ seen_alike c c' end.
Proof.
  induction 1 as [|[k1 v1] [k2 v2] d d' [E X] F IH]; [reflexivity|]. cbn [fst snd] in *. subst k2. cbn [dget]. destruct (str_eqb k k1); [eauto|exact IH].
Qed.
Lemma pk_ok_alike cols cols' : Forall2 seen_alike cols cols' -> forall refs acc r, pk_ok cols refs acc = Ok r -> pk_ok cols' refs acc = Ok r.
Proof.
  intros F. induction refs as [|j refs IH]; intros acc r H; [exact H|]. cbn [pk_ok] in *.
  destruct (mapM (fun c => col_header (o_num c) c) cols) as [hs|] eqn:E; [|discriminate H]. 
  assert (E' : mapM (fun c => col_header (o_num c) c) cols' = Ok hs /\ Forall2 entry_alike (combine hs cols) (combine hs cols')).
  { clear -F E. revert hs E. induction F as [|c c' cols cols' S F IH]; intros hs E; [apply Ok_inj in E; subst hs; split; [reflexivity|constructor]|]. cbn [mapM] in *.
    destruct (col_header (o_num c) c) as [h|] eqn:Eh; [|discriminate E]. cbn [bind] in E. destruct (mapM _ cols) as [hs'|] eqn:Em; [|discriminate E]. cbn [bind] in E. apply Ok_inj in E. subst hs.
    rewrite (sa_num _ _ S), (sa_header _ _ S _ _ Eh). destruct (IH hs' eq_refl) as [-> IH2]. split; [reflexivity|]. cbn [combine]. constructor; [split; [reflexivity|exact S]|exact IH2]. }
  destruct E' as [-> X]. cbn [bind] in *. destruct j as [| | | |s| |]; try discriminate H; try (apply IH, H).
  pose proof (dget_alike _ _ s (dset_all_alike _ _ X [] [] ltac:(constructor))) as G. destruct (dget str_eqb (dset_all str_eqb [] (combine hs cols)) s) as [c|].
  - destruct G as (c' & -> & [_ _ N _]). destruct N as [->|[-> [N|N]]]; [|rewrite N in H; apply IH, H|rewrite N in H; apply IH, H].
    destruct (col_name c) as [| | | |[|x n]| |]; apply IH, H.
  - rewrite G. apply IH, H.
Qed.
End Settle.
