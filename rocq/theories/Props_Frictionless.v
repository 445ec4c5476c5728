(** C46, C50: conversion of Frictionless data packages. *)
From Verif Require Import PyStr Dsv DsvProofs4 Json Meta Descr DescrProofs DbProofs JsonldProofs Frictionless FrictionlessSpec FrictionlessProofs FrictionlessProofs2 FrictionlessProofs3 Props_Descr.

(** *** C46: fields *)
(** every supported field descriptor is converted *)
Theorem c46_succeeds : forall str_of spec, field_ok spec -> exists res, convert_column_spec str_of spec = Ok res.
Proof. exact column_succeeds. Qed.
Print Assumptions c46_succeeds.
(** and the column has its name, title, description, property, type, lengths and bounds *)
Theorem c46_field : forall str_of spec res, field_ok spec -> convert_column_spec str_of spec = Ok res -> converted str_of spec res.
Proof. exact column_converted. Qed.
Print Assumptions c46_field.

Definition no_required : jdict -> jdict := filter (fun kv => negb (str_eqb (fst kv) (lit "required"))).
(** the datatype is the same object as without 'required' *)
Theorem c46_required_ignored : forall B (W : world B) d, datatype_fromvalue W (JObj d) = datatype_fromvalue W (JObj (no_required d)).
Proof.
  intros B W d. cbn [datatype_fromvalue].
  assert (E : has (lit "base") (no_required d) = has (lit "base") d).
  { unfold has, no_required. induction d as [|[k v] d IH]; [reflexivity|]. cbn [filter fst]. destruct (str_eqb k (lit "required")) eqn:Ek; cbn [negb].
    - apply str_eqb_eq in Ek. subst k. exact IH.
    - cbn [existsb]. f_equal. exact IH. }
  rewrite E. etransitivity; [apply (fromvalue_ignore W (Datatype_class W) (lit "required")); reflexivity|]. unfold no_required. destruct (has (lit "base") d); [reflexivity|]. rewrite filter_app. reflexivity.
Qed.
Print Assumptions c46_required_ignored.

Lemma nodup_set d k v : NoDup (map fst d) -> NoDup (map fst (fset d k v)).
Proof. apply dset_keys_nodup. Qed.
Lemma column_nodup str_of spec res : convert_column_spec str_of spec = Ok res -> NoDup (map fst res).
Proof.
  intros H. unfold convert_column_spec in H. apply bind_inv in H. destruct H as (n & _ & H). apply bind_inv in H. destruct H as (d & _ & H). apply bind_inv in H. destruct H as (c & _ & H). apply Ok_inj in H. subst res.
  unfold copy_to. assert (N0 : NoDup (map fst [(lit "name", n); (lit "datatype", JObj (constrain c d))])).
  { constructor; [intros [X|[]]; discriminate X|]. constructor; [intros []|constructor]. }
  assert (N1 : forall r, NoDup (map fst r) -> NoDup (map fst (match fget spec "title" with Some t => if truthy t then fset r "titles" (JList [t]) else r | None => r end))).
  { intros r N. destruct (fget spec "title") as [t|]; [destruct (truthy t)|]; [apply nodup_set| |]; exact N. }
  assert (N2 : forall r, NoDup (map fst r) -> NoDup (map fst (match fget spec "description" with Some t => fset r "dc:description" (JList [t]) | None => r end))).
  { intros r N. destruct (fget spec "description") as [t|]; [apply nodup_set|]; exact N. }
  destruct (fget spec "rdfType"); [apply nodup_set|]; apply N2, N1, N0.
Qed.
Lemma dget_rev (d : jdict) k : NoDup (map fst d) -> dget str_eqb (rev d) k = dget str_eqb d k.
Proof.
  induction d as [|[k0 v] d IH]; [reflexivity|]. cbn [map fst rev]. intros N. apply NoDup_cons_iff in N. destruct N as [N1 N2]. rewrite (dget_app str_eqb), (IH N2). cbn [dget]. destruct (str_eqb k k0) eqn:E.
  - apply str_eqb_eq in E. subst k0. rewrite (proj2 (dget_None_keys d k) N1); reflexivity.
  - destruct (dget str_eqb d k); reflexivity.
Qed.
(** the value of an attribute of a description *)
Definition attribute {B} (C : class B) (o : mobj B) (n : String.string) (v : mval B) : Prop := In (lit n, v) (combine (field_names C) (o_vals o)).
Lemma attribute_value B (W : world B) kvs o n v : startswith (lit "@") (lit n) = false -> char_mem 58 (lit n) = false -> fromvalue W (Column_class W) (JObj kvs) = Ok o -> attribute (Column_class W) o n v ->
  exists f, In f (column_fields W) /\ fd_name f = lit n /\ fd_conv f (getdef (dget str_eqb (rev kvs) (lit n)) (fd_default f)) = Ok v.
Proof.
  intros A C H I. pose proof (fromvalue_get W (Column_class W) (lit n) kvs o A C (fun _ => eq_refl) H) as F. revert F I. unfold attribute, field_names. cbn [cl_fields Column_class]. generalize (o_vals o). intros vs F.
  induction F as [|f w fs ws E F IH]; [intros []|]. cbn [map combine]. intros [X|I].
  - injection X as X <-. exists f. split; [left; reflexivity|]. split; [exact X|apply E, X].
  - destruct (IH I) as (g & G1 & G2 & G3). exists g. split; [right; exact G1|auto].
Qed.
Ltac fields := let X := fresh in cbn [In column_fields description_fields app]; intros X; repeat (destruct X as [<-|X]; [try discriminate|]); try destruct X.
(** so the column made of a field has its name, and it is never required *)
Theorem c46_column_not_required : forall B (W : world B) str_of spec res o, field_ok spec -> convert_column_spec str_of spec = Ok res -> fromvalue W (Column_class W) (JObj res) = Ok o ->
  (forall v, attribute (Column_class W) o "required" v -> v = MJ JNull) /\
  (forall v s, fget spec "name" = Some (JStr s) -> attribute (Column_class W) o "name" v -> v = MJ (JStr s)).
Proof.
  intros B W str_of spec res o F E H. pose proof (column_converted str_of spec res F E) as C. pose proof (column_nodup str_of spec res E) as N. split.
  - intros v I. destruct (attribute_value B W res o "required" v eq_refl eq_refl H I) as (f & Hf & En & Ev). rewrite (dget_rev _ _ N) in Ev.
    assert (X : dget str_eqb res (lit "required") = None).
    { destruct (dget str_eqb res (lit "required")) as [x|] eqn:Ex; [|reflexivity]. apply dget_In_pair in Ex. apply (in_map fst) in Ex. apply (cv_keys _ _ _ C) in Ex. cbn in Ex. repeat (destruct Ex as [Ex|Ex]; [discriminate Ex|]). destruct Ex. }
    rewrite X in Ev. revert Hf En Ev. fields. intros _. cbn. intros Ev. apply Ok_inj in Ev. symmetry. exact Ev.
  - intros v s Es I. destruct (attribute_value B W res o "name" v eq_refl eq_refl H I) as (f & Hf & En & Ev). rewrite (dget_rev _ _ N) in Ev. pose proof (cv_name _ _ _ C) as Cn. rewrite Es in Cn. unfold fget in Cn. rewrite Cn in Ev.
    revert Hf En Ev. fields. intros _. cbn. intros Ev. apply Ok_inj in Ev. symmetry. exact Ev.
Qed.
Print Assumptions c46_column_not_required.

(** *** C50: packages *)
Theorem c50_package : forall str_of dumps pkg md, to_metadata str_of dumps pkg = Ok md -> package_converted str_of dumps pkg md.
Proof. exact package_ok. Qed.
Print Assumptions c50_package.
(** one table per tabular resource and one column per field, in order *)
Theorem c50_schema : forall str_of own rmap schema res, convert_table_schema str_of own schema rmap = Ok res -> schema_converted str_of own (dget str_eqb rmap) schema res.
Proof. intros str_of own rmap schema res. apply schema_ok. reflexivity. Qed.
Print Assumptions c50_schema.

(** *** Concrete cases *)
Definition f1 : jdict :=
  [(lit "name", JStr (lit "ok")); (lit "type", JStr (lit "boolean")); (lit "title", JStr (lit "OK?")); (lit "description", JStr (lit "d"));
   (lit "trueValues", JList [JStr (lit "yes"); JStr (lit "y")]); (lit "falseValues", JList [JStr (lit "no")]); (lit "rdfType", JStr (lit "http://example.org/ok"));
   (lit "constraints", JObj [(lit "required", JBool true)])].
Definition f2 : jdict :=
  [(lit "name", JStr (lit "n")); (lit "type", JStr (lit "integer")); (lit "groupChar", JStr (lit ".")); (lit "constraints", JObj [(lit "required", JBool true); (lit "minimum", JStr (lit "1")); (lit "maximum", JStr (lit "7"))])].
Definition f3 : jdict :=
  [(lit "name", JStr (lit "s")); (lit "type", JStr (lit "string")); (lit "constraints", JObj [(lit "minLength", JInt 2); (lit "pattern", JStr (lit "[a-z]+"))])].
Definition so (j : json) : pystr := lit "?".
Lemma ok1 : field_ok f1.
Proof.
  constructor; [eexists; reflexivity| |intros [X|X]; discriminate X| |].
  - intros t H. injection H as <-. eexists. reflexivity.
  - intros p v [->| ->] H; injection H as <-; eexists; reflexivity.
  - intros c H. injection H as <-. eexists. reflexivity.
Qed.
Example c46_nonvacuous : field_ok f1 /\ exists res, convert_column_spec so f1 = Ok res /\
  fget res "datatype" = Some (JObj [(lit "base", JStr (lit "boolean")); (lit "format", JStr (lit "yes|no")); (lit "required", JBool true)]) /\
  exists o, fromvalue w0 (Column_class w0) (JObj res) = Ok o /\ attribute (Column_class w0) o "required" (MJ JNull) /\ attribute (Column_class w0) o "name" (MJ (JStr (lit "ok"))).
Proof.
  split; [exact ok1|]. eexists. split; [vm_compute; reflexivity|]. split; [vm_compute; reflexivity|]. eexists. split; [vm_compute; reflexivity|].
  split; vm_compute; tauto.
Qed.
(** what the descriptor says of required is lost *)
Example c46_required_lost : constraint f1 "required" = Some (JBool true) /\ forall res o v, convert_column_spec so f1 = Ok res -> fromvalue w0 (Column_class w0) (JObj res) = Ok o -> attribute (Column_class w0) o "required" v -> v = MJ JNull.
Proof. split; [reflexivity|]. intros res o v H1 H2. apply (c46_column_not_required pystr w0 so f1 res o ok1 H1 H2). Qed.
(** a bounded year, allowed by Table Schema, becomes a column that is rejected: gYear has no order *)
Definition f4 : jdict := [(lit "name", JStr (lit "y")); (lit "type", JStr (lit "year")); (lit "constraints", JObj [(lit "minimum", JStr (lit "1900"))])].
Example c46_year_refuted : exists res, convert_column_spec so f4 = Ok res /\ fromvalue w0 (Column_class w0) (JObj res) = Err ValueError.
Proof. eexists. split; [vm_compute; reflexivity|]. vm_compute. reflexivity. Qed.
Definition pkg1 : jdict :=
  [(lit "name", JStr (lit "p")); (lit "title", JStr (lit "T")); (lit "licenses", JList []);
   (lit "resources", JList [
     JObj [(lit "name", JStr (lit "a")); (lit "path", JStr (lit "a.csv")); (lit "scheme", JStr (lit "file")); (lit "format", JStr (lit "csv")); (lit "encoding", JStr (lit "latin-1"));
           (lit "dialect", JObj [(lit "csv", JObj [(lit "delimiter", JStr (lit ";"))])]);
           (lit "schema", JObj [(lit "fields", JList [JObj f1; JObj f2]); (lit "primaryKey", JList [JStr (lit "n")]);
             (lit "foreignKeys", JList [JObj [(lit "fields", JList [JStr (lit "n")]); (lit "reference", JObj [(lit "resource", JStr (lit "b")); (lit "fields", JList [JStr (lit "s")])])]])])];
     JObj [(lit "name", JStr (lit "doc")); (lit "path", JStr (lit "README.md"))];
     JObj [(lit "name", JStr (lit "b")); (lit "path", JStr (lit "b.csv")); (lit "scheme", JStr (lit "file")); (lit "format", JStr (lit "csv")); (lit "schema", JObj [(lit "fields", JList [JObj f3])])]])].
Example c50_nonvacuous : exists md t1 t2, to_metadata so so pkg1 = Ok md /\ fget md "tables" = Some (JList [JObj t1; JObj t2]) /\ fget t1 "url" = Some (JStr (lit "a.csv")) /\ fget t2 "url" = Some (JStr (lit "b.csv")) /\
  fget t1 "dialect" = Some (JObj [(lit "delimiter", JStr (lit ";")); (lit "encoding", JStr (lit "latin-1"))]) /\ fget md "dc:identifier" = Some (JStr (lit "p")) /\
  match fget t1 "tableSchema" with
  | Some (JObj s) => fget s "foreignKeys" = Some (JList [JObj [(lit "columnReference", JList [JStr (lit "n")]); (lit "reference", JObj [(lit "columnReference", JList [JStr (lit "s")]); (lit "resource", JStr (lit "b.csv"))])]])
  | _ => False
  end.
Proof. eexists _, _, _. split; [vm_compute; reflexivity|]. split; [vm_compute; reflexivity|]. repeat split; vm_compute; reflexivity. Qed.
(** the metadata is accepted as that of a group of tables *)
Example c50_read : exists md o, to_metadata so so pkg1 = Ok md /\ fromvalue w0 (TableGroup_class w0) (JObj md) = Ok o.
Proof. eexists _, _. split; vm_compute; reflexivity. Qed.
(** a key to the table itself has to be written with an empty resource name: without one there is no conversion *)
Example c50_self_refuted : convert_foreignKey (JStr (lit "a")) [(lit "fields", JStr (lit "n")); (lit "reference", JObj [(lit "fields", JStr (lit "m"))])] [(lit "a", JStr (lit "a.csv"))] = Err KeyError.
Proof. reflexivity. Qed.
