(** What C67 says: how the group of tables printed by csvwdescribe shows a data package. *)
From Verif Require Import PyStr Json Dsv Datatype Descr Frictionless FrictionlessSpec ForgetSpec JsonTextSpec.

(** the value of an attribute of an object *)
Definition attr_is {B} (C : class B) (o : mobj B) (n : String.string) (v : mval B) : Prop := In (lit n, v) (combine (field_names C) (o_vals o)).
Section Spec.
Context {B : Type} (W : world B).
(** a column has the name of the field, and its type *)
Record column_shows (spec : jdict) (c : mobj B) : Prop := {
  sh_name : forall n, fget spec "name" = Some (JStr n) -> attr_is (Column_class W) c "name" (MJ (JStr n));
  sh_type : field_ok spec -> exists dt, attr_is (Column_class W) c "datatype" (MObj dt) /\ attr_is (Datatype_class W) dt "base" (MJ (JStr (expected_base spec)));
}.
(** a table has the path of the resource as url, and a column for each field, in order *)
Record table_shows (r : jdict) (x : mobj B) : Prop := {
  sh_url : exists p, fget r "path" = Some (JStr p) /\ attr_is (Table_class W) x "url" (MLink p);
  sh_columns : exists sch specs s cols, fget r "schema" = Some (JObj sch) /\ fget sch "fields" = Some (JList (map JObj specs)) /\
    attr_is (Table_class W) x "tableSchema" (MObj s) /\ attr_is (Schema_class W) s "columns" (MObjs cols) /\ Forall2 column_shows specs cols;
}.
(** a group has a table for each tabular resource, in order *)
Definition group_shows (pkg : jdict) (o : mobj B) : Prop :=
  exists rs tabs, resources pkg rs /\ tables_of rs tabs /\ Forall2 table_shows tabs (tables_in o).
End Spec.

(** one file, and no wildcard *)
Definition single (csv : list pystr) : Prop := exists f, csv = [f] /\ ~ In 42 f.
(** the package described: that of the output, or a new one for the resource of the output.  A package may also be given as a text *)
Inductive package_from (fr : pystr -> pystr) (csv : list pystr) (dp : json) : jdict -> Prop :=
| pf_one : single csv -> package_from fr csv dp [(lit "resources", JList [dp]); (lit "profile", JStr (lit "data-package"))]
| pf_package pkg : ~ single csv -> dp = JObj pkg -> package_from fr csv dp pkg
| pf_text s pkg : ~ single csv -> dp = JStr s -> json_text fr s (JObj pkg) -> package_from fr csv dp pkg.
(** characters that stand for themselves in a string of JSON *)
Definition plain_char (c : N) : Prop := 32 <= c /\ c <> 34 /\ c <> 92.

(** the argument a delimiter becomes: the text of a JSON object, if the delimiter is plain *)
Definition dialect_text (d : pystr) : pystr := [123] ++ [34] ++ lit "delimiter" ++ [34] ++ lit ": " ++ [34] ++ d ++ [34] ++ [125].
(** the arguments of the command frictionless: the dialect if there is a delimiter, one file is described as CSV, others as a package, and the files *)
Definition command_of (delimiter : option pystr) (csv args : list pystr) : Prop :=
  exists dialect format, args = lit "describe" :: lit "--json" :: dialect ++ format ++ csv /\
    ((delimiter = None \/ delimiter = Some []) /\ dialect = [] \/ exists d, delimiter = Some d /\ d <> [] /\ dialect = [lit "--dialect"; dialect_text d]) /\
    (single csv /\ format = [lit "--format"; lit "csv"] \/ ~ single csv /\ format = [lit "--type"; lit "package"]).
