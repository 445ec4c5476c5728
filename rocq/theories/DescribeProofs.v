(** The metadata made of a data package is well-formed. *)
From Coq Require Import Lia.
From Verif Require Import PyStr Json Dsv Frictionless FrictionlessSpec FrictionlessProofs FrictionlessProofs2 Datatype Descr Meta MetaSpec MetaProofs Describe.
From Verif Require JsonldProofs JsonTextProofs DsvProofs4 JsonTextSpec JsonTextProofs2 DbProofs DescrProofs4.

Notation wfo d := (wf_json (JObj d)).
Lemma wf_fset d k v : wfo d -> wf_json v -> wfo (fset d k v).
Proof.
  intros Wd Wv. apply wf_obj in Wd. destruct Wd as [Nd Wd]. apply wf_obj. unfold fset. split; [apply DbProofs.dset_keys_nodup, Nd|].
  intros k' x Hx. apply DescrProofs4.dset_In in Hx. destruct Hx as [[_ ->]|Hx]; [exact Wv|eapply Wd, Hx].
Qed.
Lemma wf_fget d k v : wfo d -> fget d k = Some v -> wf_json v.
Proof. intros Wd H. apply wf_obj in Wd. apply JsonldProofs.dget_In_pair in H. eapply Wd, H. Qed.
Ltac wg := match goal with H : wf_json (JObj ?d), E : fget ?d _ = Some ?v |- wf_json ?v => exact (wf_fget d _ v H E) | H : wf_json (JObj ?d), E : fget ?d _ = Some (JObj ?v) |- _ => exact (wf_fget d _ (JObj v) H E) end.
Lemma wf_copy from k k' to : wfo from -> wfo to -> wfo (copy_to from k k' to).
Proof. intros Wf Wt. unfold copy_to. destruct (fget from k) as [v|] eqn:E; [|exact Wt]. apply wf_fset; [exact Wt|wg]. Qed.
Lemma wf_nil : wfo [].
Proof. apply wf_obj. split; [constructor|intros ? ? []]. Qed.
Lemma wf_objs (l : list jdict) : Forall (fun d => wfo d) l -> wf_json (JList (map JObj l)).
Proof. intros F. apply wf_list. intros x Hx. apply in_map_iff in Hx. destruct Hx as (d & <- & Hd). rewrite Forall_forall in F. apply F, Hd. Qed.
Ltac wobj := apply wf_obj; split; [repeat constructor; cbn; intuition discriminate|cbn [In]; let X := fresh in intros ? ? X; repeat (destruct X as [X|X]; [injection X as <- <-|]); try destruct X].
Section Wf.
Variable str_of : json -> pystr.
Lemma wf_with_base b : wfo (with_base b).
Proof. wobj. exact I. Qed.
Lemma wf_plain spec t d : wfo spec -> wf_json t -> plain_datatype str_of spec t = Ok d -> wfo d.
Proof.
  intros Ws Wt H. unfold plain_datatype in H. apply bind_inv in H. destruct H as (d2 & H2 & H).
  set (d1 := if is_lit "string" (Some t) && fgiven spec "format" then copy_to spec "format" "dc:format" [(lit "base", t)] else [(lit "base", t)]) in *.
  assert (W0 : wfo [(lit "base", t)]) by (wobj; exact Wt).
  assert (W1 : wfo d1).
  { unfold d1. destruct (is_lit "string" (Some t) && fgiven spec "format"); [|exact W0]. apply wf_copy; [exact Ws|exact W0]. }
  clearbody d1.
  assert (W2 : wfo d2).
  { destruct (is_lit "boolean" (Some t) && _ && _); [|apply Ok_inj in H2; subst; exact W1].
    apply bind_inv in H2. destruct H2 as (tv & _ & H2). apply bind_inv in H2. destruct H2 as (fv & _ & H2). apply bind_inv in H2. destruct H2 as (x & _ & H2).
    apply bind_inv in H2. destruct H2 as (y & _ & H2). apply Ok_inj in H2. subst d2. apply wf_fset; [exact W1|exact I]. }
  destruct (is_one_of _ t); [|apply Ok_inj in H; subst; exact W2].
  destruct (match fget spec "bareNumber" with Some (JBool true) => true | _ => false end); [discriminate H|].
  destruct (fhas spec "decimalChar" || fhas spec "groupChar"); [|apply Ok_inj in H; subst; exact W2]. apply Ok_inj in H. subst d.
  apply wf_fset; [exact W2|].
  assert (Wc : forall k v, fget spec k = Some v -> wf_json v) by (intros; wg).
  unfold copy_to. destruct (fgiven spec "decimalChar"), (fgiven spec "groupChar"); destruct (fget spec "decimalChar") as [a|] eqn:Ea, (fget spec "groupChar") as [b|] eqn:Eb; cbn [app fset dset];
    wobj; try (eapply Wc; eassumption).
Qed.
Lemma wf_datatype spec d : wfo spec -> datatype_of str_of spec = Ok d -> wfo d.
Proof.
  intros Ws H. unfold datatype_of in H. destruct (fget spec "type") as [t|] eqn:Et; [|apply Ok_inj in H; subst; apply wf_with_base].
  destruct (is_lit "string" (Some t) && is_lit "binary" _); [apply Ok_inj in H; subst; apply wf_with_base|].
  destruct (is_lit "string" (Some t) && is_lit "uri" _); [apply Ok_inj in H; subst; apply wf_with_base|].
  destruct (negb (hashable t)); [discriminate H|].
  destruct (is_lit "year" (Some t)); [apply Ok_inj in H; subst; apply wf_with_base|].
  destruct (is_lit "yearmonth" (Some t)); [apply Ok_inj in H; subst; apply wf_with_base|].
  destruct (is_one_of plain_types t); [eapply wf_plain; [exact Ws|exact (wf_fget _ _ _ Ws Et)|exact H]|].
  destruct (is_one_of _ t); [apply Ok_inj in H; subst; apply wf_fset; [apply wf_with_base|exact I]|].
  destruct (is_lit "geojson" (Some t)); [apply Ok_inj in H; subst; apply wf_fset; [apply wf_with_base|exact I]|].
  apply Ok_inj in H; subst; apply wf_with_base.
Qed.
Lemma wf_constrain c d : wfo c -> wfo d -> wfo (constrain c d).
Proof.
  intros Wc. unfold constrain. generalize ["required"; "minLength"; "maxLength"; "minimum"; "maximum"]%string. intros l. revert d.
  induction l as [|p l IH]; intros d Wd; [exact Wd|]. cbn [fold_left]. apply IH. unfold constraint_step.
  destruct (fhas c "pattern" && _); repeat apply wf_copy; assumption.
Qed.
Lemma wf_column spec d : wfo spec -> convert_column_spec str_of spec = Ok d -> wfo d.
Proof.
  intros Ws H. unfold convert_column_spec in H. apply bind_inv in H. destruct H as (n & Hn & H). apply bind_inv in H. destruct H as (dt & Hd & H).
  apply bind_inv in H. destruct H as (c & Hc & H). apply Ok_inj in H. subst d. apply fitem_inv in Hn.
  assert (Wc : wfo c).
  { unfold constraints_of in Hc. destruct (fget spec "constraints") as [v|] eqn:E; [|apply Ok_inj in Hc; subst; apply wf_nil].
    pose proof (wf_fget _ _ _ Ws E) as Wv. destruct v; try discriminate Hc. apply Ok_inj in Hc. subst. exact Wv. }
  assert (W0 : wfo [(lit "name", n); (lit "datatype", JObj (constrain c dt))]).
  { wobj; [wg|]. apply wf_constrain; [exact Wc|exact (wf_datatype _ _ Ws Hd)]. }
  assert (L : forall k v, fget spec k = Some v -> wf_json (JList [v])).
  { intros k v E. apply wf_list. intros x [<-|[]]. wg. }
  apply wf_copy; [exact Ws|]. destruct (fget spec "description") as [t|] eqn:Ed.
  - apply wf_fset; [|eapply L, Ed]. destruct (fget spec "title") as [u|] eqn:Eu; [destruct (truthy u); [apply wf_fset; [exact W0|eapply L, Eu]|]|]; exact W0.
  - destruct (fget spec "title") as [u|] eqn:Eu; [destruct (truthy u); [apply wf_fset; [exact W0|eapply L, Eu]|]|]; exact W0.
Qed.
Lemma wf_dicts v l : wf_json v -> dict_list v = Ok l -> Forall (fun d => wfo d) l.
Proof.
  intros Wv H. apply dict_list_inv in H. subst v. rewrite Forall_forall. intros d Hd. apply (proj1 (wf_list _) Wv). apply in_map, Hd.
Qed.
Lemma wf_mapM {A} (f : A -> res jdict) (P : A -> Prop) : (forall a d, P a -> f a = Ok d -> wfo d) -> forall l ds, Forall P l -> mapM f l = Ok ds -> Forall (fun d => wfo d) ds.
Proof.
  intros Hf. induction l as [|a l IH]; intros ds F H; [apply Ok_inj in H; subst; constructor|]. inversion_clear F. cbn [mapM] in H.
  apply bind_inv in H. destruct H as (d & Hd & H). apply bind_inv in H. destruct H as (ds' & Hs & H). apply Ok_inj in H. subst. constructor; eauto.
Qed.
Lemma wf_lookup m k v : wfo m -> lookup m k = Ok v -> wf_json v.
Proof.
  intros Wm H. unfold lookup in H. destruct k; try discriminate H. destruct (dget str_eqb m s) eqn:E; [|discriminate H]. apply Ok_inj in H. subst.
  apply wf_obj in Wm. apply JsonldProofs.dget_In_pair in E. eapply Wm, E.
Qed.
Lemma wf_jitem v k x : wf_json v -> jitem v k = Ok x -> wf_json x.
Proof. intros Wv H. destruct v; try discriminate H. eapply wf_fget; [exact Wv|]. apply fitem_inv, H. Qed.
Lemma wf_fk own rmap fk d : wfo rmap -> wfo fk -> convert_foreignKey own fk rmap = Ok d -> wfo d.
Proof.
  intros Wm Wk H. unfold convert_foreignKey in H. apply bind_inv in H. destruct H as (cols & Hc & H). apply bind_inv in H. destruct H as (ref & Hr & H).
  apply bind_inv in H. destruct H as (rc & Hrc & H). apply bind_inv in H. destruct H as (rsc & Hrsc & H). apply bind_inv in H. destruct H as (p & Hp & H).
  apply Ok_inj in H. subst d. apply fitem_inv in Hc, Hr. pose proof (wf_fget _ _ _ Wk Hr) as Wr.
  wobj; [wg|]. wobj; [exact (wf_jitem _ _ _ Wr Hrc)|exact (wf_lookup _ _ _ Wm Hp)].
Qed.
Lemma wf_schema own rmap schema d : wfo rmap -> wfo schema -> convert_table_schema str_of own schema rmap = Ok d -> wfo d.
Proof.
  intros Wm Ws H. unfold convert_table_schema in H. apply bind_inv in H. destruct H as (fs & Hf & H). apply bind_inv in H. destruct H as (specs & Hs & H).
  apply bind_inv in H. destruct H as (cols & Hc & H). apply fitem_inv in Hf. pose proof (wf_dicts _ _ (wf_fget _ _ _ Ws Hf) Hs) as Wspecs.
  pose proof (wf_mapM _ _ wf_column _ _ Wspecs Hc) as Wcols.
  assert (W1 : wfo (copy_to schema "primaryKey" "primaryKey" (copy_to schema "missingValues" "null" [(lit "columns", JList (map JObj cols))]))).
  { apply wf_copy; [exact Ws|]. apply wf_copy; [exact Ws|]. wobj. apply wf_objs, Wcols. }
  destruct (fget schema "foreignKeys") as [v|] eqn:Ek; [|apply Ok_inj in H; subst; exact W1].
  apply bind_inv in H. destruct H as (fks & Hk & H). apply bind_inv in H. destruct H as (l & Hl & H). apply Ok_inj in H. subst d.
  apply wf_fset; [exact W1|]. apply wf_objs. eapply (wf_mapM _ (fun d => wfo d)); [intros a d' Wa E; eapply (wf_fk own rmap a d' Wm Wa E)| |exact Hl].
  eapply wf_dicts; [|exact Hk]. wg.
Qed.
Lemma wf_dialect rsc d : wfo rsc -> convert_dialect rsc = Ok d -> wfo d.
Proof.
  intros Wr H. unfold convert_dialect in H. apply bind_inv in H. destruct H as (x & Hx & H). apply Ok_inj in H. subst d.
  assert (Wx : wfo x).
  { unfold dialect_dict in Hx. apply bind_inv in Hx. destruct Hx as (y & Hy & Hx).
    assert (Wy : wfo y).
    { destruct (fget rsc "dialect") as [v|] eqn:E; [|apply Ok_inj in Hy; subst; apply wf_nil]. apply as_dict_inv in Hy. subst v. wg. }
    destruct (fget y "csv") as [v|] eqn:E; [|apply Ok_inj in Hx; subst; exact Wy]. apply as_dict_inv in Hx. subst v. wg. }
  apply wf_copy; [exact Wx|].
  assert (F : forall l r, wfo r -> wfo (fold_left (fun r p => copy_to x p p r) l r)).
  { induction l as [|p l IH]; intros r Wr'; [exact Wr'|]. cbn [fold_left]. apply IH, wf_copy; assumption. }
  apply F. assert (W0 : wfo (if fgiven x "delimiter" then copy_to x "delimiter" "delimiter" [] else [])) by (destruct (fgiven x "delimiter"); [apply wf_copy; [exact Wx|]|]; apply wf_nil).
  destruct (fgiven rsc "encoding"); [apply wf_copy; [exact Wr|]|]; exact W0.
Qed.
Lemma wf_table rmap r d : wfo rmap -> wfo r -> convert_table str_of rmap r = Ok d -> wfo d.
Proof.
  intros Wm Wr H. unfold convert_table in H. apply bind_inv in H. destruct H as (p & Hp & H). apply bind_inv in H. destruct H as (schema & Hs & H).
  apply bind_inv in H. destruct H as (s & Hc & H). apply bind_inv in H. destruct H as (x & Hx & H). apply Ok_inj in H. subst d. apply fitem_inv in Hp.
  apply bind_inv in Hs. destruct Hs as (v & Hv & Hs). apply fitem_inv in Hv. apply as_dict_inv in Hs. subst v.
  wobj; [wg| |exact (wf_dialect _ _ Wr Hx)]. eapply wf_schema; [exact Wm| |exact Hc]. wg.
Qed.
Lemma wf_dset_all (l d : jdict) : wfo d -> (forall k v, In (k, v) l -> wf_json v) -> wfo (dset_all str_eqb d l).
Proof.
  revert d. induction l as [|[k v] l IH]; intros d Wd Hl; [exact Wd|]. unfold dset_all in *. cbn [fold_left fst snd]. apply IH; [|intros k' v' H; apply (Hl k'); right; exact H].
  apply wf_obj in Wd. destruct Wd as [Nd Wd]. apply wf_obj. split; [apply DbProofs.dset_keys_nodup, Nd|]. intros k' x Hx. apply DescrProofs4.dset_In in Hx.
  destruct Hx as [[_ ->]|Hx]; [apply (Hl k); left; reflexivity|eapply Wd, Hx].
Qed.
Lemma wf_resource_map rs : Forall (fun d => wfo d) rs -> wfo (resource_map rs).
Proof.
  intros Wrs. apply wf_dset_all; [apply wf_nil|]. intros k v Hv. apply in_flat_map in Hv. destruct Hv as (r & Hr' & Hv).
  destruct (fget r "name") as [[]|]; try destruct Hv. destruct (fget r "path") as [p|] eqn:E; [|destruct Hv]. destruct Hv as [X|[]]. injection X as <- <-.
  rewrite Forall_forall in Wrs. eapply wf_fget; [apply Wrs, Hr'|exact E].
Qed.
Lemma wf_resources pkg rs : wfo pkg -> resources_of pkg = Ok rs -> Forall (fun d => wfo d) rs.
Proof.
  intros Wp Hr. unfold resources_of in Hr. apply bind_inv in Hr. destruct Hr as (l & Hl & Hr). apply Ok_inj in Hr. subst rs.
  assert (Wl : Forall (fun d => wfo d) l).
  { destruct (fget pkg "resources") as [v|] eqn:E; [|apply Ok_inj in Hl; subst; constructor]. eapply wf_dicts; [|exact Hl]. wg. }
  rewrite Forall_forall in *. intros x Hx. apply filter_In in Hx. apply Wl, Hx.
Qed.
Lemma wf_metadata dumps pkg md : wfo pkg -> to_metadata str_of dumps pkg = Ok md -> wfo md.
Proof.
  intros Wp H. unfold to_metadata in H. apply bind_inv in H. destruct H as (rs & Hr & H). apply bind_inv in H. destruct H as (tabs & Ht & H). apply Ok_inj in H. subst md.
  pose proof (wf_resources _ _ Wp Hr) as Wrs. pose proof (wf_resource_map _ Wrs) as Wm.
  assert (Wt : Forall (fun d => wfo d) tabs).
  { eapply (wf_mapM _ (fun d => wfo d)); [intros a d' Wa E; eapply (wf_table _ a d' Wm Wa E)| |exact Ht]. rewrite Forall_forall in *. intros x Hx. apply filter_In in Hx. apply Wrs, Hx. }
  match goal with |- wfo (match tabs with [] => ?m | _ => _ end) => set (md := m) end.
  assert (Wmd : wfo md).
  { subst md.
    assert (F : forall l r, wfo r -> wfo (fold_left (fun m (p : String.string * String.string) => copy_to pkg (fst p) (snd p) m) l r)).
    { induction l as [|p l IH]; intros r Wr'; [exact Wr'|]. cbn [fold_left]. apply IH, wf_copy; assumption. }
    match goal with |- wfo (if _ then if _ then copy_to _ _ _ ?m else _ else _) => assert (W0 : wfo m) end.
    { apply F. wobj; exact I. }
    destruct (fhas pkg "name"); [|exact W0]. destruct (negb (fhas pkg "id")); [apply wf_copy; assumption|]. destruct (negb (fhas pkg "title")); [apply wf_copy; assumption|exact W0]. }
  destruct tabs as [|t tabs]; [exact Wmd|]. apply wf_fset; [exact Wmd|apply wf_objs, Wt].
Qed.
End Wf.
(** ... and so is what is read from a text *)
Lemma text_wf fr : (forall t j, JsonTextSpec.text fr t j -> wf_json j) /\ (forall t l, JsonTextSpec.items fr t l -> wf_json (JList l)) /\
  (forall t ms, JsonTextSpec.pairs fr t ms -> forall k v, In (k, v) ms -> wf_json v).
Proof.
  apply JsonTextProofs2.text_ind'; try (intros; exact I); try (intros; apply wf_nil).
  - intros t l _ H. exact H.
  - intros t ms kvs _ IH [K V]. apply wf_obj. rewrite K. split; [apply JsonTextProofs.firsts_NoDup|]. intros k v Hv. destruct (V k v Hv) as (a & b & -> & _).
    apply (IH k v). apply in_or_app. right. left. reflexivity.
  - intros w1 t w2 j _ _ H _. apply wf_list. intros x [<-|[]]. exact H.
  - intros w1 t w2 j t' l _ _ H _ _ IH. apply wf_list. intros x [<-|Hx]; [exact H|apply (proj1 (wf_list _) IH x Hx)].
  - intros w1 k s w2 w3 t w4 j _ _ _ _ _ H _ k' v [X|[]]. injection X as <- <-. exact H.
  - intros w1 k s w2 w3 t w4 j t' l _ _ _ _ _ H _ _ IH k' v [X|X]; [injection X as <- <-; exact H|eapply IH, X].
Qed.
Lemma loads_wf fr s j : JsonText.loads fr s = Some j -> wf_json j.
Proof.
  intros H. apply (proj1 (JsonTextProofs2.loads_iff fr s j)) in H. destruct H as (w1 & t & w2 & _ & _ & _ & H). exact (proj1 (text_wf fr) t j H).
Qed.
