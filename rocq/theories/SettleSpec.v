(** What metadata loses when it is serialised (C35, without conditions on what the objects contain). *)
From Verif Require Import PyStr Dsv Json Dialects NatLang Datatype Meta Descr DescrSpec.

Section Spec.
Context {B : Type} (env : world B).
Notation mobj := (mobj B). Notation mval := (mval B). Notation field := (field B). Notation class := (class B).

(** properties other than [] and {} *)
Inductive kept_items : list (pystr * json) -> list (pystr * json) -> Prop :=
| ki_nil : kept_items [] []
| ki_drop k j l l' : empty_json j -> kept_items l l' -> kept_items ((k, j) :: l) l'
| ki_keep k j l l' : ~ empty_json j -> kept_items l l' -> kept_items ((k, j) :: l) ((k, j) :: l').

(** The value [v] of the attribute [f] is not written: it is [] or {} - of any attribute but "null" -, or equal to the default of the attribute in
    Python (0 == False), or it are titles in no language, or it is the default dialect *)
Definition not_written (f : field) (v : mval) : Prop :=
  match v with
  | MJ j => empty_json j /\ fd_name f <> lit "null" \/ py_eq j (fd_default f) = true
  | MTitles nl => nl = [] \/ nl = [(None, [])]
  | MDialect a => attrs_init (meta_dialect_spec env) [] = Ok a
  | _ => False
  end.
(** What is read again: of what is not written, the default; of objects, what is read again of these; and else what it was *)
Definition value_settled (sub : pystr -> mobj -> mobj -> Prop) (f : field) (v v' : mval) : Prop :=
  not_written f v /\ v' = MJ (fd_default f) \/
  ~ not_written f v /\ match v with
                       | MObj x => exists x', v' = MObj x' /\ sub (fd_name f) x x'
                       | MObjs l => exists l', v' = MObjs l' /\ Forall2 (sub (fd_name f)) l l'
                       | _ => v' = v
                       end.
Record obj_settled (sub : pystr -> mobj -> mobj -> Prop) (C : class) (o o' : mobj) : Prop := {
  os_num : o_num o' = o_num o;
  os_common : kept_items (o_common o) (o_common o');
  os_at : kept_items (o_at o) (o_at o');
  os_values : Forall2 (fun fv v' => value_settled sub (fst fv) (snd fv) v') (combine (cl_fields C) (o_vals o)) (o_vals o');
}.
Definition datatype_settled : mobj -> mobj -> Prop := obj_settled (fun _ _ _ => False) (Datatype_class env).
Definition column_settled : mobj -> mobj -> Prop := obj_settled (fun n x x' => n = lit "datatype" /\ datatype_settled x x') (Column_class env).
Definition schema_settled : mobj -> mobj -> Prop :=
  obj_settled (fun n x x' => n = lit "columns" /\ column_settled x x' \/ n = lit "datatype" /\ datatype_settled x x') (Schema_class env).
Definition table_settled : mobj -> mobj -> Prop :=
  obj_settled (fun n x x' => n = lit "tableSchema" /\ schema_settled x x' \/ n = lit "datatype" /\ datatype_settled x x') (Table_class env).
Definition group_settled : mobj -> mobj -> Prop :=
  obj_settled (fun n x x' => n = lit "tables" /\ table_settled x x' \/ n = lit "tableSchema" /\ schema_settled x x' \/ n = lit "datatype" /\ datatype_settled x x')
              (TableGroup_class env).

(** What must be known: bounds of datatypes can be read again from their formatted form and formats are not [] or {}; and the "@id" of a table or group,
    which may be its "@base", is one *)
Definition datatype_keeps (o : mobj) : Prop := ~ empty_json (dt_format o) /\ bounds_survive env o.
Definition value_keeps (sub : pystr -> mobj -> Prop) (f : field) (v : mval) : Prop :=
  match v with MObj x => sub (fd_name f) x | MObjs l => Forall (sub (fd_name f)) l | _ => True end.
Definition id_keeps (o : mobj) : Prop := forall j, In (lit "id", j) (o_at o) -> j = JNull \/ empty_json j \/ exists s, j = JStr s /\ startswith (lit "_") s = false.
Definition column_keeps (o : mobj) : Prop := Forall2 (value_keeps (fun n x => n = lit "datatype" -> datatype_keeps x)) (cl_fields (Column_class env)) (o_vals o).
Definition schema_keeps (o : mobj) : Prop :=
  Forall2 (value_keeps (fun n x => (n = lit "columns" -> column_keeps x) /\ (n = lit "datatype" -> datatype_keeps x))) (cl_fields (Schema_class env)) (o_vals o).
Definition table_keeps (o : mobj) : Prop := id_keeps o /\
  Forall2 (value_keeps (fun n x => (n = lit "tableSchema" -> schema_keeps x) /\ (n = lit "datatype" -> datatype_keeps x))) (cl_fields (Table_class env)) (o_vals o).
Definition group_keeps (o : mobj) : Prop := id_keeps o /\
  Forall2 (value_keeps (fun n x => (n = lit "tables" -> table_keeps x) /\ (n = lit "tableSchema" -> schema_keeps x) /\ (n = lit "datatype" -> datatype_keeps x)))
    (cl_fields (TableGroup_class env)) (o_vals o).
End Spec.
