(** Specifications for the database schema (C37, C38). *)
From Coq Require Import Relations Permutation.
From Verif Require Import PyStr Dsv Group Db.

(** ** C37 *)
(** table [a] has a foreign key to [b], another table *)
Definition refers (tables : list tablespec) (a b : pystr) : Prop :=
  a <> b /\ exists s fk, In s tables /\ ts_name s = a /\ In fk (ts_fks s) /\ snd (fst fk) = b.
(** no table refers to itself through others *)
Definition acyclic (tables : list tablespec) : Prop := forall a, ~ clos_trans _ (refers tables) a a.
(** each table referred to is there *)
Definition closed (tables : list tablespec) : Prop :=
  forall s fk, In s tables -> In fk (ts_fks s) -> In (snd (fst fk)) (map ts_name tables).
(** each table comes after those it refers to *)
Definition ordered (l : list tablespec) : Prop :=
  forall l1 s l2 fk, l = l1 ++ s :: l2 -> In fk (ts_fks s) ->
  snd (fst fk) = ts_name s \/ In (snd (fst fk)) (map ts_name l1).

(** the tables to create: one for each table of the group, and the association tables of its list-valued foreign keys *)
Definition wanted (specs : list tablespec) : list tablespec :=
  flat_map (fun s => s :: map (fun ca => association_table (snd ca)) (ts_m2m s)) specs.
(** two tables to create that have the same name are the same *)
Definition no_name_clash (specs : list tablespec) : Prop :=
  forall a b, In a (wanted specs) -> In b (wanted specs) -> ts_name a = ts_name b -> a = b.

(** ** C38 *)
(** the pairs of columns that a foreign key relates *)
Definition pairs (cols refcols : list pystr) : list (pystr * pystr) := combine cols refcols.
(** the order of the columns is that of the columns they refer to *)
Definition monotone (cols refcols : list pystr) : Prop :=
  forall a b a' b', In (a, b) (pairs cols refcols) -> In (a', b') (pairs cols refcols) ->
  str_cmp a a' = Lt -> str_cmp b b' = Lt.
(** a row refers to a row of the other table, given the values of their columns *)
Definition refers_to {V} (cols refcols : list pystr) (row target : pystr -> V) : Prop :=
  forall a b, In (a, b) (pairs cols refcols) -> row a = target b.
