(** Table schemas, dialects and packages (C50); what becomes of 'required' (C46). *)
From Verif Require Import PyStr Dsv DsvProofs4 Json Meta Descr JsonldProofs Frictionless FrictionlessSpec FrictionlessProofs.

Lemma bind_inv {A B} (x : res A) (f : A -> res B) r : bind x f = Ok r -> exists a, x = Ok a /\ f a = Ok r.
Proof. destruct x as [a|]; [intros H; exists a; auto|discriminate]. Qed.
Lemma fitem_inv d k v : fitem d k = Ok v -> fget d k = Some v.
Proof. unfold fitem. destruct (fget d k); [intros H; apply Ok_inj in H; congruence|discriminate]. Qed.
Lemma as_dict_inv v d : as_dict v = Ok d -> v = JObj d.
Proof. destruct v; try discriminate. intros H. apply Ok_inj in H. congruence. Qed.
Lemma dicts_inv js l : Forall2 (fun a b => as_dict a = Ok b) js l -> js = map JObj l.
Proof. induction 1; [reflexivity|]. cbn. apply as_dict_inv in H. congruence. Qed.
Lemma dict_list_inv v l : dict_list v = Ok l -> v = JList (map JObj l).
Proof.
  destruct v as [| | | | |js|]; try discriminate. cbn [dict_list]. intros H. apply mapM_Forall2 in H. rewrite (dicts_inv js l); [reflexivity|exact H].
Qed.
Section Convert.
Variable str_of : json -> pystr.
(** *** foreign keys *)
Lemma fk_ok own rmap fk res paths : (forall n, dget str_eqb rmap n = paths n) -> convert_foreignKey own fk rmap = Ok res -> fk_converted own paths fk res.
Proof.
  intros P H. unfold convert_foreignKey in H. apply bind_inv in H. destruct H as (cols & H1 & H). apply bind_inv in H. destruct H as (ref & H2 & H). apply bind_inv in H. destruct H as (rcols & H3 & H).
  apply bind_inv in H. destruct H as (rsc & H4 & H). apply bind_inv in H. destruct H as (path & H5 & H). apply Ok_inj in H. subst res.
  destruct ref as [| | | | | |ref]; try discriminate H3. cbn [jitem] in H3, H4. apply fitem_inv in H1, H2, H3, H4. unfold lookup, or_else in H5.
  destruct (if truthy rsc then rsc else own) as [| | | |n| |] eqn:En; try discriminate H5. destruct (dget str_eqb rmap n) as [p|] eqn:Ep; [|discriminate H5]. apply Ok_inj in H5. subst p.
  exists cols, ref, rcols, rsc, n, path. rewrite En, <- P. auto 10.
Qed.
Lemma schema_ok own rmap schema res paths : (forall n, dget str_eqb rmap n = paths n) -> convert_table_schema str_of own schema rmap = Ok res -> schema_converted str_of own paths schema res.
Proof.
  intros P H. unfold convert_table_schema in H. apply bind_inv in H. destruct H as (fields & H1 & H). apply bind_inv in H. destruct H as (specs & H2 & H). apply bind_inv in H. destruct H as (cols & H3 & H).
  apply fitem_inv in H1. apply dict_list_inv in H2. apply mapM_Forall2 in H3. cbn zeta in H. set (r1 := copy_to schema "primaryKey" "primaryKey" (copy_to schema "missingValues" "null" [(lit "columns", JList (map JObj cols))])) in H.
  assert (K1 : forall k, In k (map fst r1) -> In k [lit "columns"; lit "null"; lit "primaryKey"; lit "foreignKeys"]).
  { intros k Hk. unfold r1 in Hk. apply keys_copy in Hk. destruct Hk as [->|Hk]; [cbn; tauto|]. apply keys_copy in Hk. destruct Hk as [->|[<-|[]]]; cbn; tauto. }
  assert (G : fget r1 "columns" = Some (JList (map JObj cols)) /\ fget r1 "null" = fget schema "missingValues" /\ fget r1 "primaryKey" = fget schema "primaryKey" /\ fget r1 "foreignKeys" = None).
  { unfold r1. rewrite !fget_copy. cbn. destruct (fget schema "missingValues"), (fget schema "primaryKey"); auto. }
  destruct G as (G1 & G2 & G3 & G4). clearbody r1. destruct (fget schema "foreignKeys") as [v|] eqn:Ef.
  - apply bind_inv in H. destruct H as (fks & H4 & H). apply bind_inv in H. destruct H as (l & H5 & H). apply Ok_inj in H. subst res. apply dict_list_inv in H4. apply mapM_Forall2 in H5. constructor.
    + exists specs, cols. rewrite H1, H2, fget_set. auto.
    + rewrite fget_set. exact G2.
    + rewrite fget_set. exact G3.
    + rewrite Ef. exists fks, l. split; [exact H4|]. split; [rewrite fget_set; reflexivity|]. eapply Forall2_weaken; [|exact H5]. intros a b _ E. apply (fk_ok own rmap a b paths P E).
    + intros k Hk. apply keys_set in Hk. destruct Hk as [->|Hk]; [cbn; tauto|apply K1, Hk].
  - apply Ok_inj in H. subst res. constructor; [exists specs, cols; rewrite H1, H2; auto|exact G2|exact G3|rewrite Ef; exact G4|exact K1].
Qed.
(** *** dialects *)
Lemma dialect_ok rsc res : convert_dialect rsc = Ok res -> dialect_converted rsc res.
Proof.
  intros H. unfold convert_dialect in H. apply bind_inv in H. destruct H as (d & H1 & H). apply Ok_inj in H.
  assert (Ed : dialect_of rsc = d).
  { unfold dialect_dict in H1. apply bind_inv in H1. destruct H1 as (d0 & H0 & H1). unfold dialect_of. destruct (fget rsc "dialect") as [v|].
    - apply as_dict_inv in H0. subst v. destruct (fget d0 "csv") as [c|]; [apply as_dict_inv in H1; subst c; reflexivity|apply Ok_inj in H1; exact H1].
    - apply Ok_inj in H0. subst d0. cbn in H1. apply Ok_inj in H1. exact H1. }
  constructor; rewrite ?Ed; subst res; cbn [fold_left].
  - intros p Hp. rewrite !fget_copy.
    assert (E0 : fget (if fgiven rsc "encoding" then copy_to rsc "encoding" "encoding" (if fgiven d "delimiter" then copy_to d "delimiter" "delimiter" [] else []) else (if fgiven d "delimiter" then copy_to d "delimiter" "delimiter" [] else [])) p =
      if str_eqb (lit p) (lit "delimiter") then (if fgiven d "delimiter" then fget d "delimiter" else None) else None).
    { assert (Np : str_eqb (lit p) (lit "encoding") = false) by (repeat (destruct Hp as [<-|Hp]; [reflexivity|]); destruct Hp).
      assert (E1 : fget (if fgiven d "delimiter" then copy_to d "delimiter" "delimiter" [] else []) p = if str_eqb (lit p) (lit "delimiter") then (if fgiven d "delimiter" then fget d "delimiter" else None) else None).
      { destruct (fgiven d "delimiter"); [rewrite fget_copy; destruct (str_eqb (lit p) (lit "delimiter")); [destruct (fget d "delimiter")|]; reflexivity|destruct (str_eqb (lit p) (lit "delimiter")); reflexivity]. }
      destruct (fgiven rsc "encoding"); [rewrite fget_copy, Np|]; exact E1. }
    rewrite E0. clear E0. repeat (destruct Hp as [<-|Hp]; [cbn; match goal with |- match ?x with _ => _ end = _ => destruct x eqn:Ex; [reflexivity|] | _ => idtac end; unfold fgiven; try rewrite Ex; reflexivity|]). destruct Hp.
  - rewrite !fget_copy. cbn. destruct (fget d "commentChar"); [reflexivity|]. destruct (fgiven rsc "encoding"); [rewrite fget_copy; cbn|]; destruct (fgiven d "delimiter"); rewrite ?fget_copy; reflexivity.
  - rewrite !fget_copy. cbn. unfold fgiven at 1. destruct (fget rsc "encoding") as [e|] eqn:Ee.
    + destruct (truthy e); [rewrite fget_copy, Ee; reflexivity|]. destruct (fgiven d "delimiter"); rewrite ?fget_copy; reflexivity.
    + destruct (fgiven d "delimiter"); rewrite ?fget_copy; reflexivity.
  - intros k Hk. repeat (apply keys_copy in Hk; destruct Hk as [->|Hk]; [cbn; tauto|]). destruct (fgiven rsc "encoding"); [apply keys_copy in Hk; destruct Hk as [->|Hk]; [cbn; tauto|]|]; (destruct (fgiven d "delimiter"); [apply keys_copy in Hk; destruct Hk as [->|[]]; cbn; tauto|destruct Hk]).
Qed.
(** *** packages *)
Definition pair_of (r : jdict) : list (pystr * json) := match fget r "name", fget r "path" with Some (JStr n), Some p => [(n, p)] | _, _ => [] end.
Definition named (n : pystr) (r : jdict) : bool := match fget r "name", fget r "path" with Some (JStr m), Some _ => str_eqb n m | _, _ => false end.
Lemma rev_flat_map rs : rev (flat_map pair_of rs) = flat_map pair_of (rev rs).
Proof.
  induction rs as [|r rs IH]; [reflexivity|]. cbn. rewrite rev_app_distr, IH, flat_map_app. f_equal. cbn. rewrite app_nil_r. unfold pair_of.
  destruct (fget r "name") as [[]|], (fget r "path"); reflexivity.
Qed.
Lemma path_first rs n : dget str_eqb (flat_map pair_of rs) n = match filter (named n) rs with r :: _ => fget r "path" | [] => None end.
Proof.
  induction rs as [|r rs IH]; [reflexivity|]. cbn [flat_map filter]. rewrite (dget_app str_eqb), IH. unfold pair_of, named at 2. destruct (fget r "name") as [[| | | |m| |]|] eqn:En, (fget r "path") as [p|] eqn:Ep; try reflexivity.
  cbn [dget]. destruct (str_eqb n m); [rewrite Ep|]; reflexivity.
Qed.
Lemma map_path rs n : dget str_eqb (resource_map rs) n = path_of rs n.
Proof.
  unfold resource_map, path_of. rewrite (dget_dset_all str_eqb str_eqb_eq). transitivity (dget str_eqb (flat_map pair_of (rev rs)) n); [|apply path_first].
  rewrite <- rev_flat_map. fold pair_of. destruct (dget str_eqb (rev (flat_map pair_of rs)) n); reflexivity.
Qed.
Lemma filter_rev {A} (f : A -> bool) l : filter f (rev l) = rev (filter f l).
Proof. induction l as [|a l IH]; [reflexivity|]. cbn [rev filter]. rewrite filter_app, IH. cbn [filter]. destruct (f a); cbn [rev]; [reflexivity|apply app_nil_r]. Qed.
Lemma path_of_filter rs n : path_of (filter (fun r => fhas r "path") rs) n = path_of rs n.
Proof.
  unfold path_of. fold (named n). rewrite <- (filter_rev (fun r => fhas r "path")). generalize (rev rs). intros l. assert (E : filter (named n) (filter (fun r => fhas r "path") l) = filter (named n) l); [|rewrite E; reflexivity].
  induction l as [|r l IH]; [reflexivity|]. cbn [filter]. destruct (fhas r "path") eqn:Eh; cbn [filter]; [rewrite IH; reflexivity|]. rewrite IH.
  assert (En : named n r = false) by (unfold named; unfold fhas in Eh; destruct (fget r "path"); [discriminate|destruct (fget r "name") as [[]|]; reflexivity]). rewrite En. reflexivity.
Qed.
Lemma is_table_iff r : is_table r = true -> (exists s, fget r "schema" = Some s /\ truthy s = true) /\ fget r "scheme" = Some (JStr (lit "file")) /\ fget r "format" = Some (JStr (lit "csv")).
Proof. unfold is_table. rewrite !Bool.andb_true_iff. intros ((A & B) & C). apply fgiven_iff in A. apply is_lit_iff in B, C. auto. Qed.
Lemma is_table_not r : is_table r = false -> ~ tabular r.
Proof.
  intros H (A & B & C & D). apply Bool.not_true_iff_false in H. apply H. unfold is_table. rewrite !Bool.andb_true_iff. split; [split|]; [apply fgiven_iff, B|apply is_lit_iff, C|apply is_lit_iff, D].
Qed.
Lemma tables_filter rs : tables_of rs (filter is_table (filter (fun r => fhas r "path") rs)).
Proof.
  induction rs as [|r rs IH]; [constructor|]. cbn [filter]. destruct (fhas r "path") eqn:Eh.
  - cbn [filter]. destruct (is_table r) eqn:Et; [apply to_take|apply to_skip]; try exact IH; [|apply is_table_not, Et]. split; [apply fhas_iff, Eh|apply is_table_iff, Et].
  - apply to_skip; [|exact IH]. intros (A & _). apply fhas_iff in A. congruence.
Qed.
Lemma table_ok rs r t : convert_table str_of (resource_map (filter (fun r => fhas r "path") rs)) r = Ok t -> table_converted str_of rs r t.
Proof.
  intros H. unfold convert_table in H. apply bind_inv in H. destruct H as (path & H1 & H). apply bind_inv in H. destruct H as (schema & H2 & H). apply bind_inv in H. destruct H as (s & H3 & H). apply bind_inv in H. destruct H as (d & H4 & H).
  apply Ok_inj in H. subst t. apply fitem_inv in H1. apply bind_inv in H2. destruct H2 as (v & H2 & H5). apply fitem_inv in H2. apply as_dict_inv in H5. subst v. apply dialect_ok in H4. constructor.
  - rewrite H1. reflexivity.
  - exists schema, s. split; [exact H2|]. split; [reflexivity|]. eapply schema_ok; [|exact H3]. intros n. rewrite map_path. apply path_of_filter.
  - exists d. split; [reflexivity|exact H4].
  - cbn. tauto.
Qed.
Variable dumps : json -> pystr.
Lemma package_ok pkg md : to_metadata str_of dumps pkg = Ok md -> package_converted str_of dumps pkg md.
Proof.
  intros H. unfold to_metadata in H. cbn zeta in H.
  set (m1 := fold_left (fun m p => copy_to pkg (fst p) (snd p) m) renamed_props [(lit "@context", JStr (lit "http://www.w3.org/ns/csvw")); (lit "dc:replaces", JStr (dumps (JObj pkg)))]) in H.
  set (m2 := if fhas pkg "name" then if negb (fhas pkg "id") then copy_to pkg "name" "dc:identifier" m1 else if negb (fhas pkg "title") then copy_to pkg "name" "dc:title" m1 else m1 else m1) in H.
  assert (F : forall k m, fget m1 k = m -> lit k <> lit "dc:identifier" -> lit k <> lit "dc:title" -> fget m2 k = m).
  { intros k m E N1 N2. unfold m2. destruct (fhas pkg "name"); [|exact E]. destruct (fhas pkg "id"), (fhas pkg "title"); cbn [negb]; rewrite ?fget_copy; try exact E;
      (destruct (str_eqb (lit k) _) eqn:Ek; [apply str_eqb_eq in Ek; contradiction|exact E]). }
  assert (G0 : fget m2 "tables" = None).
  { apply F; [|discriminate|discriminate]. unfold m1. cbn [fold_left renamed_props fst snd]. rewrite !fget_copy. reflexivity. }
  assert (G1 : forall k, lit k <> lit "tables" -> forall v, fget (fset m2 "tables" v) k = fget m2 k).
  { intros k N v. rewrite fget_set. destruct (str_eqb (lit k) _) eqn:Ek; [apply str_eqb_eq in Ek; contradiction|reflexivity]. }
  apply bind_inv in H. destruct H as (rs & H1 & H). apply bind_inv in H. destruct H as (ts & H2 & H). apply Ok_inj in H.
  assert (E : forall k, lit k <> lit "tables" -> fget md k = fget m2 k) by (intros k N; subst md; destruct ts; [reflexivity|apply G1, N]).
  assert (I1 : fget m1 "dc:identifier" = fget pkg "id") by (unfold m1; cbn [fold_left renamed_props fst snd]; rewrite !fget_copy; cbn; destruct (fget pkg "id"); reflexivity).
  assert (I2 : fget m1 "dc:title" = fget pkg "title") by (unfold m1; cbn [fold_left renamed_props fst snd]; rewrite !fget_copy; cbn; destruct (fget pkg "title"); reflexivity).
  constructor.
  - rewrite E by discriminate. apply F; [|discriminate|discriminate]. unfold m1. cbn [fold_left renamed_props fst snd]. rewrite !fget_copy. reflexivity.
  - rewrite E by discriminate. apply F; [|discriminate|discriminate]. unfold m1. cbn [fold_left renamed_props fst snd]. rewrite !fget_copy. reflexivity.
  - intros p q Hp. assert (N : lit q <> lit "tables" /\ lit q <> lit "dc:identifier" /\ lit q <> lit "dc:title" /\ fget m1 q = fget pkg p).
    { unfold m1. cbn [fold_left renamed_props fst snd]. rewrite !fget_copy. repeat (destruct Hp as [Hp|Hp]; [injection Hp as <- <-; split; [discriminate|]; split; [discriminate|]; split; [discriminate|]; cbn; match goal with |- match ?x with _ => _ end = _ => destruct x; reflexivity end|]). destruct Hp. }
    destruct N as (N1 & N2 & N3 & N4). rewrite (E q N1). apply F; assumption.
  - rewrite E by discriminate. unfold m2, fhas. destruct (fget pkg "name") as [v|] eqn:En; [|rewrite I1; destruct (fget pkg "id"); reflexivity].
    destruct (fget pkg "id") as [i|] eqn:Ei; cbn [negb]; [|rewrite fget_copy, En; reflexivity]. destruct (fget pkg "title") eqn:Et; cbn [negb]; rewrite ?fget_copy; cbn; exact I1.
  - rewrite E by discriminate. unfold m2, fhas. destruct (fget pkg "name") as [v|] eqn:En; [|rewrite I2; destruct (fget pkg "id"), (fget pkg "title"); reflexivity].
    destruct (fget pkg "id") as [i|] eqn:Ei; cbn [negb]; [|rewrite fget_copy; etransitivity; [exact I2|]; destruct (fget pkg "title"); reflexivity].
    destruct (fget pkg "title") as [t|] eqn:Et; cbn [negb]; [exact I2|]. rewrite fget_copy, En. reflexivity.
  - unfold resources_of in H1. apply bind_inv in H1. destruct H1 as (l & H0 & H1). apply Ok_inj in H1. subst rs. exists l, (filter is_table (filter (fun r => fhas r "path") l)), ts. split; [|split; [|split]].
    + unfold resources. destruct (fget pkg "resources") as [v|]; [apply dict_list_inv, H0|apply Ok_inj in H0; congruence].
    + apply tables_filter.
    + apply mapM_Forall2 in H2. eapply Forall2_weaken; [|exact H2]. intros a b _. apply table_ok.
    + subst md. destruct ts; [exact G0|]. rewrite fget_set. reflexivity.
  - intros k Hk.
    assert (K1 : forall k, In k (map fst m1) -> In k [lit "@context"; lit "dc:replaces"; lit "dc:identifier"; lit "dc:title"; lit "tables"] \/ In k (map (fun p => lit (snd p)) package_props)).
    { clear. intros k Hk. unfold m1 in Hk. cbn [fold_left renamed_props fst snd] in Hk. repeat (apply keys_copy in Hk; destruct Hk as [->|Hk]; [cbn; tauto|]). destruct Hk as [<-|[<-|[]]]; cbn; tauto. }
    assert (K2 : In k (map fst m2) -> In k (map fst m1) \/ k = lit "dc:identifier" \/ k = lit "dc:title").
    { unfold m2. destruct (fhas pkg "name"); [|auto]. destruct (fhas pkg "id"), (fhas pkg "title"); cbn [negb]; intros X; auto; apply keys_copy in X; tauto. }
    assert (K3 : k = lit "tables" \/ In k (map fst m2)) by (subst md; destruct ts; [auto|apply keys_set in Hk; exact Hk]).
    destruct K3 as [->|K3]; [cbn; tauto|]. destruct (K2 K3) as [X|[->| ->]]; [apply K1, X|cbn; tauto|cbn; tauto].
Qed.
End Convert.
