(** Property theorems about serialising description objects (C35). *)
From Verif Require Import PyStr Dsv Json Dialects NatLang Datatype Column Meta MetaSpec Descr DescrSpec
  DescrProofs DescrProofs2 DescrProofs3 DescrProofs4 DescrProofs5.

(** *** C35: metadata survives serialisation *)
(** [wf_json d]: [d] is a JSON document as json.load returns it (distinct keys).  [x_survives]: see DescrSpec.v.
    "=" is equality of all attributes, common and at-properties. *)
Theorem c35_datatype {B} (env : world B) d o j :
  wf_json d -> datatype_fromvalue env d = Ok o -> datatype_survives env o ->
  datatype_asdict env true o = Ok j -> datatype_fromvalue env j = Ok o.
Proof. intros W H V E. apply (datatype_rt env d o j W H V E). Qed.
Print Assumptions c35_datatype.

Theorem c35_column {B} (env : world B) omit d o d' :
  wf_json d -> fromvalue env (Column_class env) d = Ok o -> column_survives env o ->
  asdict (Column_class env) omit o = Ok d' -> fromvalue env (Column_class env) (JObj d') = Ok o.
Proof. apply column_rt. Qed.
Print Assumptions c35_column.

Theorem c35_schema {B} (env : world B) omit d o d' :
  wf_json d -> fromvalue env (Schema_class env) d = Ok o -> schema_survives env o ->
  asdict (Schema_class env) omit o = Ok d' -> fromvalue env (Schema_class env) (JObj d') = Ok o.
Proof. apply schema_rt. Qed.
Print Assumptions c35_schema.

(** Every Dialect, without exception. *)
Theorem c35_dialect {B} (env : world B) :
  w_codec env (lit "utf-8") = CKnown -> (* Python knows the default encoding *)
  forall j a, new_dialect env j = Ok a ->
  new_dialect env (JObj (attrs_asdict (meta_dialect_spec env) true a)) = Ok a.
Proof. apply dialect_rt. Qed.
Print Assumptions c35_dialect.

Theorem c35_table {B} (env : world B) omit d o d' :
  w_codec env (lit "utf-8") = CKnown ->
  (forall s j, w_fetch_schema env s = Some j -> wf_json j) ->
  wf_json d -> fromvalue env (Table_class env) d = Ok o -> table_survives env o ->
  asdict (Table_class env) omit o = Ok d' -> fromvalue env (Table_class env) (JObj d') = Ok o.
Proof. intros U F. apply table_rt; assumption. Qed.
Print Assumptions c35_table.

Theorem c35_group {B} (env : world B) omit d o d' :
  w_codec env (lit "utf-8") = CKnown ->
  (forall s j, w_fetch_schema env s = Some j -> wf_json j) ->
  wf_json d -> fromvalue env (TableGroup_class env) d = Ok o -> group_survives env o ->
  asdict (TableGroup_class env) omit o = Ok d' -> fromvalue env (TableGroup_class env) (JObj d') = Ok o.
Proof. intros U F. apply group_rt; assumption. Qed.
Print Assumptions c35_group.

(** The exception: a table's explicit dialect is lost if it is the default one - and nothing else is. *)
Theorem c35_default_dialect_lost {B} (env : world B) omit d o d' a :
  w_codec env (lit "utf-8") = CKnown ->
  (forall s j, w_fetch_schema env s = Some j -> wf_json j) ->
  wf_json d -> fromvalue env (Table_class env) d = Ok o ->
  dialect_of o = MDialect a -> new_dialect env (JObj []) = Ok a ->
  table_survives env (set_dialect (MJ JNull) o) ->
  asdict (Table_class env) omit o = Ok d' ->
  fromvalue env (Table_class env) (JObj d') = Ok (set_dialect (MJ JNull) o).
Proof. intros U F W H D I. apply (table_default_dialect env U F omit d o d' a W H D). exact I. Qed.
Print Assumptions c35_default_dialect_lost.

(** *** A concrete world: bounds are their own text; nothing is on the net *)
Definition w0 : world pystr :=
  {| w_tag_ok := fun s => str_mem s [lit "en"; lit "und"; lit "de"];
     w_codec := fun s => if str_mem s [lit "utf-8"; lit "latin-1"] then CKnown else CUnknown;
     w_fetch_schema := fun _ => None; w_fetch_dialect := fun _ _ => Err OtherError;
     w_urljoin := fun b s => Ok (JStr s); w_py_int := fun _ => Err ValueError;
     w_parse := fun _ _ j => match j with JStr s => Ok s | _ => Err TypeError end;
     w_formatted := fun _ _ s => Ok s; w_formatted_none := fun _ _ => Ok (lit "None");
     w_ops := {| v_truthy := fun s => match s with [] => false | _ => true end; v_len := fun s => Some (length s);
                 v_cmp := fun a b => Ok (Some (N.compare (hd 0%N a) (hd 0%N b))) |};
     w_derived_ok := fun _ _ => Ok tt;
     w_noisy := fun b _ j => str_eqb b (lit "decimal") && match j with JStr s => str_mem s [lit "INF"; lit "-INF"; lit "NaN"] | _ => false end;
     w_odd_format := fun b f => str_eqb b (lit "boolean") && match f with JNull | JStr (_ :: 124 :: _) => false | _ => true end |}.
Lemma w0_utf8 : w_codec w0 (lit "utf-8") = CKnown. Proof. reflexivity. Qed.
Lemma w0_fetch : forall s j, w_fetch_schema w0 s = Some j -> wf_json j. Proof. intros s j H. discriminate H. Qed.

Definition col1 : json :=
  JObj [(lit "name", JStr (lit "ID")); (lit "titles", JObj [(lit "en", JList [JStr (lit "Id"); JStr (lit "Key")])]);
        (lit "datatype", JObj [(lit "base", JStr (lit "integer")); (lit "minimum", JStr (lit "1")); (lit "maximum", JStr (lit "7")); (lit "dc:title", JStr (lit "x"))]);
        (lit "required", JBool true); (lit "null", JList []); (lit "separator", JStr (lit ";"));
        (lit "propertyUrl", JStr (lit "http://example.org/{ID}")); (lit "dc:source", JObj [(lit "@value", JStr (lit "s"))])].
Definition col2 : json := JObj [(lit "titles", JStr (lit "T")); (lit "default", JStr (lit "d")); (lit "datatype", JStr (lit "date"))].
Definition schema1 : json :=
  JObj [(lit "@id", JStr (lit "http://example.org/s")); (lit "columns", JList [col1; col2]); (lit "primaryKey", JStr (lit "ID"));
        (lit "foreignKeys", JList [JObj [(lit "columnReference", JStr (lit "ID"));
                                         (lit "reference", JObj [(lit "resource", JStr (lit "b.csv")); (lit "columnReference", JStr (lit "ID"))])]])].
Definition table1 : json :=
  JObj [(lit "url", JStr (lit "a.csv")); (lit "tableSchema", schema1); (lit "suppressOutput", JBool true);
        (lit "dialect", JObj [(lit "delimiter", JStr (lit ";")); (lit "header", JBool false)])].
Definition table2 : json := JObj [(lit "url", JStr (lit "b.csv")); (lit "dialect", JObj []); (lit "dc:title", JStr (lit "B"))].
Definition group1 : json :=
  JObj [(lit "@context", JList [JStr (lit "http://www.w3.org/ns/csvw"); JObj [(lit "@language", JStr (lit "en"))]]);
        (lit "dc:title", JStr (lit "G")); (lit "tables", JList [table1; JObj [(lit "url", JStr (lit "b.csv"))]]);
        (lit "dialect", JObj [(lit "commentPrefix", JStr (lit "#"))])].

Definition get {A} (r : res A) (d : A) : A := match r with Ok x => x | Err _ => d end.
Definition nobj : mobj pystr := MO None [] [] [].
Definition group1_obj : mobj pystr := Eval vm_compute in get (fromvalue w0 (TableGroup_class w0) group1) nobj.
Definition group1_dict := Eval vm_compute in get (asdict (TableGroup_class w0) true group1_obj) [].
Definition group1_full := Eval vm_compute in get (asdict (TableGroup_class w0) false group1_obj) [].

(** deciding the side conditions for concrete objects *)
Ltac in_cases := let H := fresh in intros ? ? H; cbn in H;
  repeat (destruct H as [H|H]; [injection H as <- <-; intros [X|X]; discriminate X|]); destruct H.
Ltac id_cases := let H := fresh in intros ? H; cbn in H;
  repeat (destruct H as [H|H]; [first [discriminate H | injection H as <-; right; eexists; split; reflexivity]|]); destruct H.
Ltac value := cbn [value_survives];
  lazymatch goal with
  | |- True => exact I
  | |- _ \/ _ => first [left; split; [reflexivity|obj] | right; value]
  | |- Forall _ [] => apply Forall_nil
  | |- Forall _ _ => apply Forall_cons; [cbv beta; value|value]
  | |- _ = _ /\ _ => split; [reflexivity|obj]
  | |- _ /\ _ => split; [first [intros [X|X]; first [discriminate X | left; reflexivity | right; reflexivity] | intros X; discriminate X]
                       | intros X; first [discriminate X | intros Y; first [discriminate Y|reflexivity]]]
  | |- attrs_init _ _ <> _ => vm_compute; intros X; discriminate X
  | |- _ => obj
  end
with obj :=
  lazymatch goal with
  | |- datatype_survives _ _ => split; [dobj|intros ? ? H; cbn in H; repeat (destruct H as [H|H]; [first [discriminate H|injection H as <-; intros Y; vm_compute in Y; apply Ok_inj in Y; subst; reflexivity]|]); destruct H]
  | |- _ => dobj
  end
with dobj :=
  constructor; [in_cases|in_cases|id_cases|repeat (apply Forall2_cons; [value|]); apply Forall2_nil].

Lemma group1_survives : group_survives w0 group1_obj.
Proof. unfold group1_obj. obj. Qed.
Ltac nodup := repeat (apply NoDup_cons; [cbn; let H := fresh in intros H; repeat (destruct H as [H|H]; [discriminate H|]); destruct H|]); apply NoDup_nil.
Ltac wf := repeat match goal with
  | |- wf_json _ => progress cbn [wf_json]
  | |- NoDup _ => nodup
  | |- True => exact I
  | |- _ /\ _ => split
  end.
Lemma group1_wf : wf_json group1.
Proof. unfold group1, table1, schema1, col1, col2. wf. Qed.

Example c35_nonvacuous :
  wf_json group1 /\ fromvalue w0 (TableGroup_class w0) group1 = Ok group1_obj /\ group_survives w0 group1_obj /\
  asdict (TableGroup_class w0) true group1_obj = Ok group1_dict /\
  asdict (TableGroup_class w0) false group1_obj = Ok group1_full /\ (length group1_dict < length group1_full)%nat /\
  fromvalue w0 (TableGroup_class w0) (JObj group1_dict) = Ok group1_obj.
Proof.
  split; [exact group1_wf|]. split; [vm_compute; reflexivity|]. split; [exact group1_survives|].
  split; [vm_compute; reflexivity|]. split; [vm_compute; reflexivity|]. split; [vm_compute; repeat constructor|].
  vm_compute. reflexivity.
Qed.
(** a table whose explicit default dialect is lost *)
Definition table2_obj : mobj pystr := Eval vm_compute in get (fromvalue w0 (Table_class w0) table2) nobj.
Example c35_default_dialect_nonvacuous :
  wf_json table2 /\ fromvalue w0 (Table_class w0) table2 = Ok table2_obj /\
  (exists a, dialect_of table2_obj = MDialect a /\ new_dialect w0 (JObj []) = Ok a) /\
  table_survives w0 (set_dialect (MJ JNull) table2_obj) /\
  asdict (Table_class w0) true table2_obj = Ok [(lit "dc:title", JStr (lit "B")); (lit "url", JStr (lit "b.csv"))].
Proof.
  split; [unfold table2; wf|]. split; [vm_compute; reflexivity|].
  split; [eexists; split; vm_compute; reflexivity|]. split; [|vm_compute; reflexivity].
  let x := eval vm_compute in (set_dialect (MJ JNull) table2_obj) in change (table_survives w0 x). obj.
Qed.

(** *** What does not survive *)
(** "every description re-built from its asdict() is equal to it" is false for each class: *)
Definition lost (C : class pystr) (d : json) : Prop :=
  exists o d' o', fromvalue w0 C d = Ok o /\ asdict C true o = Ok d' /\ fromvalue w0 C (JObj d') = Ok o' /\ o <> o'.
Ltac lost := eexists _, _, _; split; [vm_compute; reflexivity|split; [vm_compute; reflexivity|split; [vm_compute; reflexivity|intros X; discriminate X]]].

(** empty common properties and at-properties; a separator or titles that are empty lists; an empty primary key *)
Theorem c35_empty_values_lost_refuted :
  lost (Column_class w0) (JObj [(lit "dc:title", JList [])]) /\
  lost (Column_class w0) (JObj [(lit "separator", JList [])]) /\
  lost (Column_class w0) (JObj [(lit "titles", JList [])]) /\
  lost (Schema_class w0) (JObj [(lit "primaryKey", JList [])]) /\
  lost (Table_class w0) (JObj [(lit "url", JStr (lit "a.csv")); (lit "dialect", JObj [])]) /\
  lost (TableGroup_class w0) (JObj [(lit "notes", JObj [])]).
Proof. repeat split; lost. Qed.
Print Assumptions c35_empty_values_lost_refuted.

(** A suppressOutput of 0 is taken for the default False. *)
Theorem c35_falsy_suppress_refuted :
  lost (Table_class w0) (JObj [(lit "url", JStr (lit "a.csv")); (lit "suppressOutput", JInt 0)]).
Proof. lost. Qed.
Print Assumptions c35_falsy_suppress_refuted.

(** Datatype.asdict(omit_defaults=False) writes "None" for each missing bound; the result cannot be read, or is
    another datatype. *)
Theorem c35_datatype_full_refuted :
  exists o j o', datatype_fromvalue w0 (JStr (lit "string")) = Ok o /\ datatype_asdict w0 false o = Ok j /\
    datatype_fromvalue w0 j = o' /\ o' <> Ok o.
Proof. eexists _, _, _. split; [vm_compute; reflexivity|]. split; [vm_compute; reflexivity|]. split; [vm_compute; reflexivity|]. intros X; discriminate X. Qed.
Print Assumptions c35_datatype_full_refuted.

(** A column with a malformed URI template can be built, but not written as JSON. *)
Theorem c35_invalid_template_refuted :
  exists o, fromvalue w0 (Column_class w0) (JObj [(lit "aboutUrl", JInt 1)]) = Ok o /\ asdict (Column_class w0) true o = Err TypeError.
Proof. eexists. split; vm_compute; reflexivity. Qed.
Print Assumptions c35_invalid_template_refuted.
