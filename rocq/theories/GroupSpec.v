(** Specifications for C33 and C47. *)
From Verif Require Import PyStr Dsv DsvSpec Column Schema Table TableSpec Group.

Section Spec.
Context {V : Type} (veq : V -> V -> bool).
Notation gtable := (@gtable V).

(** the table a resource refers to: the last of that name *)
Definition last_named (ts : list gtable) (name : pystr) (t : gtable) : Prop :=
  exists pre post, ts = pre ++ t :: post /\ g_name t = name /\ forall t', In t' post -> g_name t' <> name.
(** child has a foreign key referring to the table target (by name, not by its schema) *)
Definition refers_to (ts : list gtable) (child : gtable) (fk : fkey) (target : gtable) : Prop :=
  In child ts /\ In fk (g_fkeys child) /\ fk_schemaReference fk = None
  /\ exists r, fk_resource fk = Some r /\ last_named ts r target.
(** every internal foreign key refers to some table *)
Definition all_resolved (ts : list gtable) : Prop :=
  forall child fk, In child ts -> In fk (g_fkeys child) -> fk_schemaReference fk = None ->
    exists target, refers_to ts child fk target.
(** columns of a foreign key and of the referenced key match *)
Definition column_pair (target child : gtable) (k r : pystr) : Prop :=
  exists c c', get_column (g_cols target) k = Ok (Some c) /\ get_column (g_cols child) r = Ok (Some c')
    /\ forall t t', de_datatype (c_desc (tc_col c)) = Some (Some t) -> de_datatype (c_desc (tc_col c')) = Some (Some t') ->
       dt_base t = dt_base t'.
Definition keys_match (ts : list gtable) : Prop :=
  all_resolved ts /\
  forall child fk target, refers_to ts child fk target -> Forall2 (column_pair target child) (fk_refcols fk) (fk_cols fk).

(** ** Data *)
Definition rows_of (log : bool) (t : gtable) : list (nat * dict V) := io_rows (g_iter t log).
(** the tables involved can be read (with a log: apart from bad rows) *)
Definition readable (log : bool) (ts : list gtable) : Prop :=
  forall child fk target, refers_to ts child fk target -> io_end (g_iter child log) = None /\ io_end (g_iter target log) = None.
(** all tables with foreign keys can be read, without a log *)
Definition readable_children (ts : list gtable) : Prop :=
  forall t, In t ts -> g_fkeys t <> [] -> io_end (g_iter t false) = None.
(** keys are keys of the dicts, and hashable (lists only in foreign keys of one column, and in null keys) *)
Definition keys_usable (log : bool) (ts : list gtable) : Prop :=
  forall child fk target, refers_to ts child fk target ->
    (fk_refcols fk <> [])
    /\ (forall line d, In (line, d) (rows_of log target) -> exists vals, has_keys (fk_refcols fk) d vals /\ no_lists vals)
    /\ (forall line d, In (line, d) (rows_of log child) -> exists vals, has_keys (fk_cols fk) d vals /\ (length (fk_cols fk) = 1%nat \/ no_lists vals \/ In PNone vals)).

(** the table is read from some file *)
Definition from_file (t : gtable) : Prop :=
  exists sc expand lim dl lang file, t = of_table sc expand lim dl lang (g_name t) (g_cols t) (g_pk t) (g_fkeys t) file.
(** these names are names of (not virtual) columns of the table *)
Definition names_columns (t : gtable) (ks : list pystr) : Prop :=
  forall k, In k ks -> exists c, In c (g_cols t) /\ tc_virtual c = false /\ tc_header c = k.
Definition no_separators (t : gtable) (ks : list pystr) : Prop :=
  forall k c, In k ks -> In c (g_cols t) -> tc_header c = k -> st_separator (tc_st c) = None.

(** some row of the target has this key *)
Definition found (log : bool) (target : gtable) (fk : fkey) (vals : list (pyval V)) : Prop :=
  exists line d vals', In (line, d) (rows_of log target) /\ has_keys (fk_refcols fk) d vals' /\ same_key veq vals vals'.
(** the foreign key of a row is null, or found; for a list, each of its elements is found *)
Definition satisfied (log : bool) (target : gtable) (fk : fkey) (d : dict V) : Prop :=
  exists vals, has_keys (fk_cols fk) d vals /\
    (In PNone vals
     \/ (exists l, vals = [PList l] /\ forall o, In o l -> found log target fk [of_opt o])
     \/ found log target fk vals).
Definition all_satisfied (log : bool) (ts : list gtable) : Prop :=
  forall child fk target, refers_to ts child fk target ->
    forall line d, In (line, d) (rows_of log child) -> satisfied log target fk d.
Definition some_violated (log : bool) (ts : list gtable) : Prop :=
  exists child fk target line d, refers_to ts child fk target /\ In (line, d) (rows_of log child) /\ ~ satisfied log target fk d.
(** referenced keys are unique *)
Definition all_unique (log : bool) (ts : list gtable) : Prop :=
  forall child fk target, refers_to ts child fk target ->
    forall i j x y vx vy, nth_error (rows_of log target) i = Some x -> nth_error (rows_of log target) j = Some y ->
      has_keys (fk_refcols fk) (snd x) vx -> has_keys (fk_refcols fk) (snd y) vy -> same_key veq vx vy -> i = j.
(** foreign key cells are not null (all foreign keys) *)
Definition null_key (fk : fkey) (d : dict V) : Prop :=
  exists c, In c (fk_cols fk) /\ (dget str_eqb d c = Some PNone \/ dget str_eqb d c = None).
Definition no_nulls (ts : list gtable) : Prop :=
  forall t fk line d, In t ts -> In fk (g_fkeys t) -> In (line, d) (rows_of false t) -> ~ null_key fk d.

(** ** Validation (C47) *)
(** keys of the primary key, by row (bad rows are skipped): hashable and unique *)
Definition primary_key_unique (t : gtable) : Prop :=
  match g_pk t with
  | Some (k :: ks) => exists keys, Forall2 (fun lr key => has_keys (k :: ks) (snd lr) key) (rows_of true t) keys
      /\ (forall key, In key keys -> no_lists key) /\ (forall i, ~ repeated veq keys i) /\ io_end (g_iter t true) = None
  | _ => True
  end.
(** reading the table non-strictly succeeds without warnings *)
Definition reads_quietly (t : gtable) : Prop := io_end (g_lax t) = None /\ io_warns (g_lax t) = [].
(** the strict readings for the checks of keys do not warn *)
Definition key_checks_quiet (ts : list gtable) : Prop :=
  (forall t k ks, In t ts -> g_pk t = Some (k :: ks) -> io_warns (g_iter t true) = [])
  /\ (forall t, In t ts -> g_fkeys t <> [] -> io_warns (g_iter t false) = [])
  /\ (forall child fk target, refers_to ts child fk target -> io_warns (g_iter target false) = []).
Definition integrity_holds (strict log : bool) (ts : list gtable) : Prop :=
  keys_match ts /\ readable log ts /\ keys_usable log ts /\ all_satisfied log ts
  /\ (strict = true -> readable_children ts /\ no_nulls ts /\ all_unique log ts).
End Spec.
