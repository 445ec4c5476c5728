(** Property theorems C34.  Vocabulary: SchemaSpec.v. *)
From Verif Require Import PyStr Dsv Json NatLang Column Schema SchemaSpec SchemaProofs SchemaProofs2.

(** * C34: Schema construction *)
Theorem c34_constructed : forall V (s : schema V) s' w, schema_init s = Ok (s', w) ->
  virtual_last (s_columns s) /\ distinct_names (s_columns s) /\ numbered (s_columns s) (s_columns s').
Proof. exact @schema_init_ok. Qed.
Print Assumptions c34_constructed.
Theorem c34_otherwise_valueerror : forall V (s : schema V), headers_defined (s_columns s) ->
  (virtual_last (s_columns s) /\ distinct_names (s_columns s) -> exists r, schema_init s = Ok r)
  /\ (~ (virtual_last (s_columns s) /\ distinct_names (s_columns s)) -> schema_init s = Err ValueError).
Proof. exact @schema_init_total. Qed.
Print Assumptions c34_otherwise_valueerror.

(** What is warned about, and what happens to the primary key; nothing else changes. *)
Theorem c34_warnings : forall V (s s' : schema V) w, schema_init s = Ok (s', w) ->
  (In InvalidColumnName w <-> exists c n, In c (s_columns s) /\ has_name c n /\ odd_name n)
  /\ (In DuplicateColumnName w <-> same_header (s_columns s))
  /\ (In PrimaryKeyWithoutName w <-> nameless_key (s_columns s') (s_primaryKey s))
  /\ (forall x, In x w -> x = InvalidColumnName \/ x = DuplicateColumnName \/ x = PrimaryKeyWithoutName)
  /\ (nameless_key (s_columns s') (s_primaryKey s) -> s_primaryKey s' = None)
  /\ (~ nameless_key (s_columns s') (s_primaryKey s) -> s_primaryKey s' = s_primaryKey s)
  /\ s_desc s' = s_desc s /\ s_foreignKeys s' = s_foreignKeys s.
Proof. exact @schema_warnings. Qed.
Print Assumptions c34_warnings.

Definition mkcol (name : option pystr) (titles : option natlang) (virtual : bool) : column unit :=
  {| c_desc := desc0; c_name := name; c_titles := titles; c_virtual := virtual; c_number := None |}.
Definition mkschema (cols : list (column unit)) : schema unit :=
  {| s_desc := desc0; s_columns := cols; s_primaryKey := None; s_foreignKeys := [] |}.
(** without name and with an empty list of titles: another exception *)
Theorem c34_empty_titles_refuted : schema_init (mkschema [mkcol None (Some [(None, [])]) false]) = Err IndexError.
Proof. reflexivity. Qed.
Print Assumptions c34_empty_titles_refuted.
(** virtual columns may repeat names *)
Theorem c34_virtual_names_refuted : exists r,
  schema_init (mkschema [mkcol (Some (lit "a")) None false; mkcol (Some (lit "a")) None true]) = Ok r.
Proof. eexists. vm_compute. reflexivity. Qed.
Print Assumptions c34_virtual_names_refuted.
(** two columns without name and titles are reported as duplicates although their headers are _col.1 and _col.2 *)
Theorem c34_spurious_warning_refuted : exists s' w, schema_init (mkschema [mkcol None None false; mkcol None None false]) = Ok (s', w)
  /\ In DuplicateColumnName w /\ mapM header (s_columns s') = Ok [lit "_col.1"; lit "_col.2"].
Proof. do 2 eexists. split; [vm_compute; reflexivity|]. split; [left; reflexivity|vm_compute; reflexivity]. Qed.
Print Assumptions c34_spurious_warning_refuted.
Example c34_nonvacuous :
  headers_defined (s_columns (mkschema [mkcol (Some (lit "a")) None false; mkcol None (Some [(None, [lit "B"])]) false; mkcol None None true]))
  /\ (exists r, schema_init (mkschema [mkcol (Some (lit "a")) None false; mkcol None (Some [(None, [lit "B"])]) false; mkcol None None true]) = Ok r)
  /\ schema_init (mkschema [mkcol (Some (lit "a")) None false; mkcol (Some (lit "a")) None false]) = Err ValueError
  /\ schema_init (mkschema [mkcol (Some (lit "a")) None true; mkcol (Some (lit "b")) None false]) = Err ValueError.
Proof.
  split; [|split; [eexists; vm_compute; reflexivity|split; vm_compute; reflexivity]].
  intros c [<-|[<-|[<-|[]]]].
  - left. exists (lit "a"). split; [reflexivity|discriminate].
  - right. cbn. intros nl H. injection H as <-. discriminate.
  - right. cbn. discriminate.
Qed.
Example c34_warnings_nonvacuous : exists s',
  schema_init {| s_desc := desc0; s_columns := [mkcol (Some (lit "_a b")) None false; mkcol None (Some [(None, [lit "B"])]) false; mkcol (Some (lit "B")) None false; mkcol None None false]; s_primaryKey := Some [lit "_a b"; lit "_col.4"]; s_foreignKeys := [] |}
  = Ok (s', [InvalidColumnName; DuplicateColumnName; PrimaryKeyWithoutName]) /\ s_primaryKey s' = None.
Proof. eexists. split; [vm_compute; reflexivity|reflexivity]. Qed.
