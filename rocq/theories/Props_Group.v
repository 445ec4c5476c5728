(** Property theorems C33 and C47.  Vocabulary: GroupSpec.v and TableSpec.v (same_key, has_keys, repeated). *)
From Verif Require Import PyStr Dsv DsvSpec Column Schema Table TableSpec Group GroupSpec GroupProofs1 GroupProofs2 GroupProofs3 GroupProofs4 GroupProofs5.
From Coq Require String. Local Notation string := String.string.

(** An example group: languages (id, gc), and values referring to them by a key (lang), a list-valued key (langs)
    and a composite key (lang, gc) *)
Definition gcol (name : string) : tcol nat :=
  {| tc_col := {| c_desc := desc0; c_name := Some (lit name); c_titles := Some [(None, [lit name ++ lit " title"])]; c_virtual := false; c_number := None |};
     tc_header := lit name; tc_st := settings_of desc0 [] |}.
Definition read_as (rows : list (nat * dict nat)) (ws : list warning) : @iterout nat := {| io_rows := rows; io_msgs := []; io_warns := ws; io_end := None |}.
Definition gtab (name : string) (cols : list string) (pk : option (list pystr)) (fks : list fkey) (rows : list (nat * dict nat)) : @gtable nat :=
  {| g_name := lit name; g_cols := map gcol cols; g_pk := pk; g_fkeys := fks; g_iter := fun _ => read_as rows []; g_lax := read_as rows [] |}.
Definition fk_to (cols : list string) (table : string) (refcols : list string) : fkey :=
  {| fk_cols := map lit cols; fk_resource := Some (lit table); fk_schemaReference := None; fk_refcols := map lit refcols |}.
Definition langs : list (nat * dict nat) :=
  [(2%nat, [(lit "id", POne 1%nat); (lit "gc", POne 10%nat)]); (3%nat, [(lit "id", POne 2%nat); (lit "gc", POne 10%nat)])].
Definition vals : list (nat * dict nat) :=
  [(2%nat, [(lit "lang", POne 2%nat); (lit "gc", POne 10%nat); (lit "langs", PList [Some 1%nat; Some 2%nat])]);
   (3%nat, [(lit "lang", POne 1%nat); (lit "gc", POne 10%nat); (lit "langs", PList [])])].
Definition vals_null : list (nat * dict nat) := vals ++ [(4%nat, [(lit "lang", PNone); (lit "gc", POne 77%nat); (lit "langs", PNone)])].
Definition vals_bad : list (nat * dict nat) := vals_null ++ [(5%nat, [(lit "lang", POne 2%nat); (lit "gc", POne 11%nat); (lit "langs", PList [Some 1%nat; Some 3%nat])])].
Definition group_of (l v : list (nat * dict nat)) : list (@gtable nat) :=
  [gtab "vals.csv" ["lang"; "gc"; "langs"]%string None
     [fk_to ["lang"] "langs.csv" ["id"]; fk_to ["lang"; "gc"] "langs.csv" ["id"; "gc"]; fk_to ["langs"] "langs.csv" ["id"]]%string v;
   gtab "langs.csv" ["id"; "gc"]%string (Some [lit "id"]) [] l].
Lemma nat_equivalence : equivalence Nat.eqb.
Proof.
  split; [apply Nat.eqb_refl|]. split; [intros a b H; apply Nat.eqb_eq in H; subst; apply Nat.eqb_refl|].
  intros a b c H1 H2. apply Nat.eqb_eq in H1, H2. subst. apply Nat.eqb_refl.
Qed.

(** * C33: referential integrity *)
(** the verdict is True exactly when integrity holds: keys refer to existing columns, can be looked up,
    are null or found; if strict, also not null and referenced keys are unique *)
Theorem c33_verdict : forall V (veq : V -> V -> bool), equivalence veq -> forall strict log (ts : list (@gtable V)),
  snd (check_referential_integrity veq strict log ts) = Ok true <-> integrity_holds veq strict log ts.
Proof. exact @integrity_iff. Qed.
Print Assumptions c33_verdict.
Theorem c33_log : forall V (veq : V -> V -> bool), equivalence veq -> forall strict (ts : list (@gtable V)),
  keys_match ts -> readable true ts -> keys_usable true ts -> (strict = true -> readable_children ts /\ no_nulls ts) ->
  exists b ms, check_referential_integrity veq strict true ts = (ms, Ok b)
    /\ (b = true <-> all_satisfied veq true ts /\ (strict = true -> all_unique veq true ts))
    /\ (forall m, In m ms <-> exists child fk target line d, refers_to ts child fk target /\ In (line, d) (rows_of true child)
          /\ ~ satisfied veq true target fk d /\ m = NotFound (g_name child) line (g_name target)).
Proof. exact @integrity_log. Qed.
Print Assumptions c33_log.
Theorem c33_nolog : forall V (veq : V -> V -> bool), equivalence veq -> forall strict (ts : list (@gtable V)),
  keys_match ts -> readable false ts -> keys_usable false ts -> (strict = true -> readable_children ts /\ no_nulls ts) ->
  (all_satisfied veq false ts -> exists b, check_referential_integrity veq strict false ts = ([], Ok b) /\ (b = true <-> (strict = true -> all_unique veq false ts)))
  /\ (some_violated veq false ts -> check_referential_integrity veq strict false ts = ([], Err ValueError))
  /\ (all_satisfied veq false ts \/ some_violated veq false ts).
Proof. exact @integrity_nolog. Qed.
Print Assumptions c33_nolog.
Theorem c33_strict_null : forall V (veq : V -> V -> bool) log (ts : list (@gtable V)), readable_children ts ->
  (exists t fk line d, In t ts /\ In fk (g_fkeys t) /\ In (line, d) (rows_of false t) /\ null_key fk d) ->
  check_referential_integrity veq true log ts = ([], Err ValueError).
Proof. exact @strict_null_raises. Qed.
Print Assumptions c33_strict_null.
Theorem c33_schema : forall V (ts : list (@gtable V)), validate_schema ts = Ok tt <-> keys_match ts.
Proof. exact @schema_iff. Qed.
Print Assumptions c33_schema.
(** for tables read from files: the keys can be used if they name columns, without separators where lists are not allowed *)
Theorem c33_usable : forall V log (ts : list (@gtable V)),
  (forall t, In t ts -> from_file t) ->
  (forall child fk target, refers_to ts child fk target ->
     fk_refcols fk <> [] /\ names_columns target (fk_refcols fk) /\ no_separators target (fk_refcols fk)
     /\ names_columns child (fk_cols fk) /\ (length (fk_cols fk) = 1%nat \/ no_separators child (fk_cols fk))) ->
  keys_usable log ts.
Proof. exact @files_usable. Qed.
Print Assumptions c33_usable.
Example c33_nonvacuous :
  check_referential_integrity Nat.eqb true false (group_of langs vals) = ([], Ok true)
  /\ check_referential_integrity Nat.eqb false true (group_of langs vals_null) = ([], Ok true)
  /\ check_referential_integrity Nat.eqb true true (group_of langs vals_null) = ([], Err ValueError)
  /\ check_referential_integrity Nat.eqb false true (group_of langs vals_bad)
     = ([NotFound (lit "vals.csv") 5 (lit "langs.csv"); NotFound (lit "vals.csv") 5 (lit "langs.csv")], Ok false)
  /\ check_referential_integrity Nat.eqb false false (group_of langs vals_bad) = ([], Err ValueError)
  /\ check_referential_integrity Nat.eqb true true (group_of (langs ++ [(4%nat, [(lit "id", POne 2%nat); (lit "gc", POne 12%nat)])]) vals) = ([], Ok false)
  /\ integrity_holds Nat.eqb true false (group_of langs vals)
  /\ keys_match (group_of langs vals_bad).
Proof.
  do 6 (split; [reflexivity|]). split.
  - apply (proj1 (integrity_iff Nat.eqb nat_equivalence true false _)). reflexivity.
  - apply schema_iff. reflexivity.
Qed.
(** with a log, an unknown table still raises KeyError after the message *)
Theorem c33_unknown_table_refuted : forall V (veq : V -> V -> bool) (ts : list (@gtable V)), foreign_keys ts = Err KeyError ->
  check_referential_integrity veq false true ts = ([SchemaError], Err KeyError).
Proof. intros V veq ts H. unfold check_referential_integrity, validate_schema. rewrite H. reflexivity. Qed.
Print Assumptions c33_unknown_table_refuted.
Example c33_unknown_table_nonvacuous : foreign_keys [gtab "a.csv" ["x"]%string None [fk_to ["x"] "b.csv" ["y"]]%string []] = Err KeyError.
Proof. reflexivity. Qed.
(** columns of a foreign key may be given by their titles as far as validate_schema is concerned; the check then raises KeyError *)
Theorem c33_titles_refuted : exists ts : list (@gtable nat), validate_schema ts = Ok tt /\ forall strict log, snd (check_referential_integrity Nat.eqb false log ts) = Err KeyError
  /\ (strict = true -> snd (check_referential_integrity Nat.eqb strict log ts) = Err ValueError).
Proof.
  exists [gtab "a.csv" ["x"]%string None [fk_to ["x title"] "b.csv" ["y"]]%string [(2%nat, [(lit "x", POne 1%nat)])];
          gtab "b.csv" ["y"]%string None [] [(2%nat, [(lit "y", POne 1%nat)])]].
  split; [reflexivity|]. intros strict [|]; (split; [reflexivity|intros ->; reflexivity]).
Qed.
Print Assumptions c33_titles_refuted.
(** None in a list-valued key is not null: it must be found in the referenced table *)
Theorem c33_none_in_list_refuted :
  check_referential_integrity Nat.eqb false false (group_of langs [(2%nat, [(lit "lang", PNone); (lit "gc", PNone); (lit "langs", PList [None])])]) = ([], Err ValueError).
Proof. reflexivity. Qed.
Print Assumptions c33_none_in_list_refuted.

(** * C47: validation verdict *)
Theorem c47_verdict : forall V (veq : V -> V -> bool), equivalence veq -> forall loading (ts : list (@gtable V)),
  is_valid veq loading ts = Ok true <->
  loading = [] /\ (forall t, In t ts -> reads_quietly t /\ primary_key_unique veq t) /\ integrity_holds veq true false ts /\ key_checks_quiet ts.
Proof. exact @is_valid_iff. Qed.
Print Assumptions c47_verdict.
(** a duplicate primary key is not reported as False but raises ValueError *)
Theorem c47_duplicate_refuted : forall V (veq : V -> V -> bool), equivalence veq -> forall (ts : list (@gtable V)) t pre post k ks keys, ts = pre ++ t :: post ->
  (forall u, In u pre -> exists w, validate_table veq u = Ok w) -> io_end (g_lax t) = None ->
  g_pk t = Some (k :: ks) -> Forall2 (fun lr key => has_keys (k :: ks) (snd lr) key) (rows_of true t) keys -> (forall key, In key keys -> no_lists key) ->
  (exists i, repeated veq keys i) -> is_valid veq [] ts = Err ValueError.
Proof. exact @duplicate_raises. Qed.
Print Assumptions c47_duplicate_refuted.
Example c47_nonvacuous :
  is_valid Nat.eqb [] (group_of langs vals) = Ok true
  /\ is_valid Nat.eqb [InvalidColumnValue] (group_of langs vals) = Ok false
  /\ is_valid Nat.eqb [] (group_of langs vals_bad) = Err ValueError
  /\ is_valid Nat.eqb [] (group_of (langs ++ [(4%nat, [(lit "id", POne 2%nat); (lit "gc", POne 12%nat)])]) vals) = Err ValueError
  /\ is_valid Nat.eqb [] [{| g_name := lit "a.csv"; g_cols := [gcol "x"]; g_pk := None; g_fkeys := [];
        g_iter := fun _ => read_as [] []; g_lax := read_as [] [InvalidColumnValue] |}] = Ok false.
Proof. do 4 (split; [reflexivity|]). reflexivity. Qed.
