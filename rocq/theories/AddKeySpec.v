(** What C68 says: a table with one more foreign key. *)
From Coq Require Import String.
From Verif Require Import PyStr Dsv Json Datatype Descr DescribeSpec AddKey Column Schema Table DsvSpec TableSpec Group GroupSpec.
Local Open Scope list_scope.
Inductive given : carg -> list pystr -> Prop :=
| gv_one s : given (CJson (JStr s)) [s]
| gv_list l : given (CJson (JList (map JStr l))) l.
Section Spec.
Context {B : Type} (W : world B).
(** [o] and [o'] are alike in all but the attribute [n] *)
Record alike_but (C : class B) (n : string) (o o' : mobj B) : Prop := {
  al_num : o_num o' = o_num o; al_common : o_common o' = o_common o; al_at : o_at o' = o_at o;
  al_attrs : forall m v, m <> n -> (attr_is C o m v <-> attr_is C o' m v);
}.
(** the schema and the columns of a table *)
Definition schema_is (t s : mobj B) : Prop := attr_is (Table_class W) t "tableSchema" (MObj s).
Definition columns_are (s : mobj B) (cs : list (mobj B)) : Prop := attr_is (Schema_class W) s "columns" (MObjs cs).
Definition keys_are (s : mobj B) (ks : list fkobj) : Prop := attr_is (Schema_class W) s "foreignKeys" (MFks ks).
(** the name of a column of the table; None is that of a column without a name *)
Definition names_column (t : mobj B) (n : json) : Prop :=
  exists s cs c, schema_is t s /\ columns_are s cs /\ In c cs /\ attr_is (Column_class W) c "name" (MJ n).
(** [t'] is [t] with the foreign key [k] after the others *)
Definition with_key (t : mobj B) (k : fkobj) (t' : mobj B) : Prop :=
  exists s s' ks, schema_is t s /\ schema_is t' s' /\ alike_but (Table_class W) "tableSchema" t t' /\
    keys_are s ks /\ keys_are s' (ks ++ [k]) /\ alike_but (Schema_class W) "foreignKeys" s s'.
(** the foreign key from columns of the table to columns of a resource *)
Definition key_to (cols : list pystr) (resource : pystr) (refcols : list pystr) : fkobj :=
  {| k_cols := JList (map JStr cols); k_resource := Some resource; k_schemaReference := None; k_refcols := JList (map JStr refcols) |}.
End Spec.

(** *** What the checks of references make of it *)
Section Check.
Context {V : Type} (veq : V -> V -> bool).
Notation gtable := (@gtable V).
Definition add_key (k : fkey) (t : gtable) : gtable :=
  {| g_name := g_name t; g_cols := g_cols t; g_pk := g_pk t; g_fkeys := g_fkeys t ++ [k]; g_iter := g_iter t; g_lax := g_lax t |}.
(** what the check asks of one foreign key *)
Record key_holds (strict log : bool) (child : gtable) (k : fkey) (target : gtable) : Prop := {
  kh_match : Forall2 (column_pair target child) (fk_refcols k) (fk_cols k);
  kh_read : io_end (g_iter child log) = None /\ io_end (g_iter target log) = None;
  kh_some : fk_refcols k <> [];
  kh_target : forall line d, In (line, d) (rows_of log target) -> exists vals, has_keys (fk_refcols k) d vals /\ no_lists vals;
  kh_child : forall line d, In (line, d) (rows_of log child) -> exists vals, has_keys (fk_cols k) d vals /\ (length (fk_cols k) = 1%nat \/ no_lists vals \/ In PNone vals);
  kh_found : forall line d, In (line, d) (rows_of log child) -> satisfied veq log target k d;
  kh_unique : strict = true -> forall i j x y vx vy, nth_error (rows_of log target) i = Some x -> nth_error (rows_of log target) j = Some y ->
      has_keys (fk_refcols k) (snd x) vx -> has_keys (fk_refcols k) (snd y) vy -> same_key veq vx vy -> i = j;
  kh_strict : strict = true -> io_end (g_iter child false) = None /\ forall line d, In (line, d) (rows_of false child) -> ~ null_key k d;
}.
End Check.
