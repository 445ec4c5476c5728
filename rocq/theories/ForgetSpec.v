(** Descriptions without the dialects that are the default one (C35, C67). *)
From Verif Require Import PyStr Dsv Json Dialects NatLang Datatype Meta Descr DescrSpec.
Section Spec.
Context {B : Type} (env : world B).
(** a description without its dialect, if this is the default dialect: reading a table with no dialect gives the same *)
Definition forgets (o o' : mobj B) : Prop :=
  o' = o \/ exists a, dialect_of o = MDialect a /\ new_dialect env (JObj []) = Ok a /\ o' = set_dialect (MJ JNull) o.
(** the tables of a group *)
Definition tables_in (o : mobj B) : list (mobj B) := match nth 17 (o_vals o) (MJ JNull) with MObjs l => l | _ => [] end.
Definition set_tables (l : list (mobj B)) (o : mobj B) : mobj B := MO (o_num o) (o_common o) (o_at o) (firstn 17 (o_vals o) ++ [MObjs l]).
(** a group without default dialects *)
Definition group_forgets (o o' : mobj B) : Prop :=
  exists o1 ts, forgets o o1 /\ Forall2 forgets (tables_in o) ts /\ o' = set_tables ts o1.
End Spec.
