(** Serialising and reading again: whole descriptions; datatypes. *)
From Coq Require Import Sorted Permutation.
From Verif Require Import PyStr Dsv Json Dialects NatLang Datatype Meta MetaSpec Descr DescrSpec DescrProofs DescrProofs2 DescrProofs3 FromParts SettleSpec SettleProofs.
Local Open Scope nat_scope.

Section Settle.
Context {B : Type} (env : world B).
Notation mval := (mval B). Notation mobj := (mobj B). Notation field := (field B). Notation class := (class B).
Notation stored_ok := (stored_ok env).
Definition contributes (fs : list field) (vs : list mval) (rs : list (list (pystr * json))) : Prop :=
  Forall2 (fun fv r => contrib (fst fv) (snd fv) r) (combine fs vs) rs.

Lemma asdict_parts (C : class) num common at_ vals d : length (cl_fields C) = length vals ->
  asdict C true (MO num common at_ vals) = Ok d -> exists rs, contributes (cl_fields C) vals rs /\
    d = filter keep (map (fun kv => (lit "@" ++ fst kv, snd kv)) (sort_items at_)) ++ filter keep (sort_items common) ++ concat rs.
Proof.
  intros L E. unfold asdict in E. cbn [o_vals o_at o_common] in E. destruct (asdict_attrs true (cl_fields C) vals) as [attrs|] eqn:A; [|discriminate E]. cbn [bind] in E. apply Ok_inj in E.
  destruct (contrib_attrs _ _ _ L A) as (rs & F & X). exists rs. split; [exact F|]. rewrite <- X, <- E. change (fun kv : pystr * json => str_eqb (fst kv) (lit "null") || negb (is_empty (snd kv))) with keep. rewrite !filter_app. reflexivity.
Qed.
Lemma asdict_build (C : class) num common at_ vals rs : length (cl_fields C) = length vals -> contributes (cl_fields C) vals rs ->
  asdict C true (MO num common at_ vals) = Ok (filter keep (map (fun kv => (lit "@" ++ fst kv, snd kv)) (sort_items at_)) ++ filter keep (sort_items common) ++ concat rs).
Proof.
  intros L F. destruct (attrs_contrib _ _ _ L F) as (attrs & A & X). unfold asdict. cbn [o_vals o_at o_common]. rewrite A. cbn [bind]. rewrite <- X.
  change (fun kv : pystr * json => str_eqb (fst kv) (lit "null") || negb (is_empty (snd kv))) with keep. rewrite !filter_app. reflexivity.
Qed.
Lemma keep_at (l : list (pystr * json)) : filter keep (map (fun kv => (lit "@" ++ fst kv, snd kv)) (filter full l)) = filter keep (map (fun kv => (lit "@" ++ fst kv, snd kv)) l).
Proof.
  induction l as [|[k j] l IH]; [reflexivity|]. cbn [filter map fst snd]. unfold full at 1. cbn [snd]. unfold keep at 2. cbn [fst snd].
  replace (str_eqb (lit "@" ++ k) (lit "null")) with false by reflexivity. cbn [orb]. destruct (negb (is_empty j)) eqn:E; [|exact IH].
  cbn [filter map fst snd]. unfold keep at 1. cbn [fst snd]. replace (str_eqb (lit "@" ++ k) (lit "null")) with false by reflexivity. cbn [orb]. rewrite E, IH. reflexivity.
Qed.
Lemma keep_common (C : class) common at_ : stored_ok C common at_ -> filter keep (filter full common) = filter keep common.
Proof.
  intros S. pose proof (st_common _ _ _ _ S) as F. clear S. induction F as [|[k j] l (_ & F & _) Fl IH]; [reflexivity|]. cbn [filter fst snd] in *. unfold full at 1. cbn [snd]. unfold keep at 2. cbn [fst snd].
  assert (N : str_eqb k (lit "null") = false) by (apply str_eqb_neq; intros ->; discriminate F). rewrite N. cbn [orb]. destruct (negb (is_empty j)) eqn:E; [|exact IH].
  cbn [filter]. unfold keep at 1. cbn [fst snd]. rewrite E, orb_true_r, IH. reflexivity.
Qed.
Definition serialised (common at_ : list (pystr * json)) (rs : list (list (pystr * json))) : list (pystr * json) :=
  filter keep (map (fun kv => (lit "@" ++ fst kv, snd kv)) (sort_items at_)) ++ filter keep (sort_items common) ++ concat rs.
Lemma asdict_same (C : class) num' common at_ vals' rs : stored_ok C common at_ -> length (cl_fields C) = length vals' -> contributes (cl_fields C) vals' rs ->
  asdict C true (MO num' (filter full common) (filter full at_) vals') = Ok (serialised common at_ rs).
Proof.
  intros S L F. rewrite (asdict_build C num' (filter full common) (filter full at_) vals' rs L F). unfold serialised.
  pose proof (stored_filter env C _ _ S) as S'.
  rewrite (sorted_sort _ (st_at_sorted _ _ _ _ S)), (sorted_sort _ (st_at_sorted _ _ _ _ S')), (sorted_sort _ (st_common_sorted _ _ _ _ S)), (sorted_sort _ (st_common_sorted _ _ _ _ S')).
  rewrite keep_at, (keep_common C common at_ S). reflexivity.
Qed.
Lemma survives_stored sub (C : class) num common at_ vals : stored_ok C common at_ -> Forall2 (value_survives env sub) (cl_fields C) vals ->
  obj_survives env sub C (MO num (filter full common) (filter full at_) vals).
Proof.
  intros S F. constructor; cbn [o_common o_at o_vals]; [apply survives_filter|apply survives_filter| |exact F].
  intros j H. apply filter_In in H. destruct (st_id _ _ _ _ S _ (proj1 H)) as [->|H']; auto.
Qed.

(** a description all of whose attributes settle, of a class that does nothing more *)
Definition agree (S : pystr -> mobj -> Prop) (R : pystr -> mobj -> mobj -> Prop) (C : class) (o o' : mobj) (d' : list (pystr * json)) : Prop :=
  asdict C true o' = Ok d' /\ obj_survives env S C o' /\ obj_settled env R C o o'.
Lemma obj_settles K S R (C : class) d o d' : (forall o, cl_post C o = Ok o) -> names_ok C -> (forall f, In f (cl_fields C) -> wf_json (fd_default f)) -> Forall (field_settles env K S R) (cl_fields C) ->
  wf_json d -> fromvalue env C d = Ok o -> Forall2 (value_keeps K) (cl_fields C) (o_vals o) -> asdict C true o = Ok d' ->
  exists j o', wf_json (JObj j) /\ fromvalue env C (JObj j) = Ok o' /\ agree S R C o o' d'.
Proof.
  intros P N Dw FS W H V E. destruct (fromvalue_parts env C d o W Dw H) as (common & at_ & vals & St & Wa & F & Po). rewrite P in Po. apply Ok_inj in Po. subst o. cbn [o_vals] in V.
  pose proof (Forall2_length _ _ _ F) as L. destruct (asdict_parts _ _ _ _ _ _ L E) as (rs & Cr & Ed).
  destruct (fields_settle env K S R _ _ _ FS F V Cr) as (vals' & L' & F' & V' & R' & Cr').
  pose proof (stored_filter env C _ _ St) as St'.
  set (o' := MO None (filter full common) (filter full at_) vals').
  destruct (from_parts env C (filter full common) (filter full at_) vals' o' N St') as (j & Wj & Hj); [|exact F'|apply P|].
  { intros k v Hin. apply filter_In in Hin. eapply Wa, Hin. }
  exists j, o'. split; [exact Wj|]. split; [exact Hj|]. split; [|split].
  - rewrite Ed. apply (asdict_same C None common at_ vals' rs St); [congruence|exact Cr'].
  - apply survives_stored; assumption.
  - constructor; cbn [o_num o_common o_at o_vals o']; [reflexivity|apply kept_filter|apply kept_filter|exact R'].
Qed.
End Settle.
