(** Which descriptions survive serialisation (C35).

    asdict() leaves out every attribute or property whose value is [] or {} (metadata.py:492-499), so these must
    not occur, unless building the object anew supplies the same value.  Everything else here is about
    external code (bounds must be re-read from their formatted form) or about Python's False == 0. *)
From Verif Require Import PyStr Dsv Json Dialects NatLang Datatype Meta Descr.

Definition empty_json (j : json) : Prop := j = JList [] \/ j = JObj [].

Section Spec.
Context {B : Type} (env : world B).

(** [sub n x]: the object [x] in attribute [n] survives *)
Definition value_survives (sub : pystr -> mobj B -> Prop) (f : field B) (v : mval B) : Prop :=
  match v with
  | MJ j => (* [] and {}: only for "null", or where it is the default *)
      (empty_json j -> fd_name f = lit "null" \/ j = fd_default f) /\
      (* a value that equals the default False is False *)
      (fd_default f = JBool false -> py_eq j (JBool false) = true -> j = JBool false)
  | MTitles nl => (* at least one language, or title *) nl <> [] /\ nl <> [(None, [])]
  | MDialect a => (* not the default dialect, Dialect() *) attrs_init (meta_dialect_spec env) [] <> Ok a
  | MObj x => sub (fd_name f) x
  | MObjs l => Forall (sub (fd_name f)) l
  | MInvalid | MUri _ | MLink _ | MBound _ | MFks _ => True
  end.
Record obj_survives (sub : pystr -> mobj B -> Prop) (C : class B) (o : mobj B) : Prop := {
  sv_common : forall k j, In (k, j) (o_common o) -> ~ empty_json j;
  sv_at : forall k j, In (k, j) (o_at o) -> ~ empty_json j;
  (* an "@id" can be read again *)
  sv_id : forall j, In (lit "id", j) (o_at o) -> j = JNull \/ exists s, j = JStr s /\ startswith (lit "_") s = false;
  sv_values : Forall2 (value_survives sub) (cl_fields C) (o_vals o);
}.

(** a bound is read again from its formatted form (see C17-C22 for when this is so) *)
Definition bounds_survive (o : mobj B) : Prop :=
  forall b s, In (MBound b) (o_vals o) -> w_formatted env (dt_base o) (dt_format o) b = Ok s ->
              w_parse env (dt_base o) (dt_format o) (JStr s) = Ok b.

Definition datatype_survives (o : mobj B) : Prop :=
  obj_survives (fun _ _ => False) (Datatype_class env) o /\ bounds_survive o.
Definition column_survives (o : mobj B) : Prop := obj_survives (fun _ => datatype_survives) (Column_class env) o.
Definition schema_survives (o : mobj B) : Prop :=
  obj_survives (fun n x => n = lit "columns" /\ column_survives x \/ n = lit "datatype" /\ datatype_survives x) (Schema_class env) o.
Definition table_survives (o : mobj B) : Prop :=
  obj_survives (fun n x => n = lit "tableSchema" /\ schema_survives x \/ n = lit "datatype" /\ datatype_survives x)
               (Table_class env) o.
Definition group_survives (o : mobj B) : Prop :=
  obj_survives (fun n x => n = lit "tables" /\ table_survives x \/ n = lit "tableSchema" /\ schema_survives x \/
                           n = lit "datatype" /\ datatype_survives x)
               (TableGroup_class env) o.

(** the dialect attribute of a table or group *)
Definition dialect_of (o : mobj B) : mval B := nth 11 (o_vals o) (MJ JNull).
Definition set_dialect (v : mval B) (o : mobj B) : mobj B :=
  MO (o_num o) (o_common o) (o_at o) (firstn 11 (o_vals o) ++ v :: skipn 12 (o_vals o)).
End Spec.
