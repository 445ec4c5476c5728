(** C63: loading metadata without a warning.  Vocabulary: WarnSpec.v, LoadSpec.v, MetaSpec.v. *)
From Verif Require Import PyStr Dsv Json Dialects NatLang Datatype Column Meta MetaSpec Schema Descr Load LoadSpec Warn WarnSpec
  WarnProofs WarnProofs2 WarnProofs3 WarnProofs4 WarnProofs5 WarnProofs6 Props_Descr Props_Load.

(** Metadata that is loaded gives no warning if and only if it is in order. *)
Theorem c63_group : forall B (W : world B) d o, usual W -> wf_json (JObj d) -> fromvalue W (TableGroup_class W) (JObj d) = Ok o ->
  (group_warns W (JObj d) = [] <-> group_in_order W d).
Proof. intros B W d o [U1 U2 U3 U4 U5]. apply group_nil; assumption. Qed.
Print Assumptions c63_group.
Theorem c63_table : forall B (W : world B) d o, usual W -> wf_json (JObj d) -> fromvalue W (Table_class W) (JObj d) = Ok o ->
  (table_warns W (JObj d) = [] <-> table_in_order W d).
Proof. intros B W d o [U1 U2 U3 U4 U5]. apply table_nil; assumption. Qed.
Print Assumptions c63_table.
Theorem c63_schema : forall B (W : world B) v x, usual W -> wf_json v -> schema_fromvalue W v = Ok x ->
  (schema_warns W v = [] <-> schema_in_order W v).
Proof. intros B W v x [U1 U2 U3 U4 U5]. apply schema_value_nil; assumption. Qed.
Print Assumptions c63_schema.
Theorem c63_column : forall B (W : world B) d o, usual W -> wf_json (JObj d) -> fromvalue W (Column_class W) (JObj d) = Ok o ->
  (column_warns W (JObj d) = [] <-> column_in_order W d).
Proof. intros B W d o [U1 U2 U3 U4 U5]. apply column_nil; assumption. Qed.
Print Assumptions c63_column.
Theorem c63_datatype : forall B (W : world B) j o, wf_json j -> truthy j = true -> datatype_fromvalue W j = Ok o ->
  (datatype_warns W j = [] <-> datatype_in_order W j).
Proof. intros. eapply datatype_nil; eassumption. Qed.
Print Assumptions c63_datatype.
Theorem c63_dialect : forall B (W : world B) j a, usual W -> wf_json j -> new_dialect W j = Ok a ->
  (dialect_warns W j = [] <-> dialect_in_order W j).
Proof. intros B W j a [U1 U2 U3 U4 U5]. apply dialect_nil; assumption. Qed.
Print Assumptions c63_dialect.

(** *** Examples *)
(** links to a schema and to a dialect *)
Definition s_j : object := jo [("columns", JList [JObj (jo [("name", js "ID"); ("datatype", js "integer")]); JObj (jo [("titles", JObj (jo [("en", JList [js "A"; js "B"])]))]);
  JObj (jo [("name", js "v"); ("virtual", JBool true)])]); ("primaryKey", JList [js "ID"]); ("foreignKeys", JList [])]%string.
Definition w1 : world pystr :=
  {| w_tag_ok := w_tag_ok w0; w_codec := w_codec w0;
     w_fetch_schema := fun u => if str_eqb u (lit "s.json") then Some (JObj s_j) else None;
     w_fetch_dialect := fun u _ => if str_eqb u (lit "d.json") then Ok (JObj (jo [("delimiter", js ";"); ("header", js "no"); ("headerRowCount", JInt 2)]%string))
                                   else if str_eqb u (lit "bad.json") then Ok (JObj (jo [("header", js "no")]%string)) else Err OtherError;
     w_urljoin := w_urljoin w0; w_py_int := w_py_int w0; w_parse := w_parse w0; w_formatted := w_formatted w0; w_formatted_none := w_formatted_none w0;
     w_ops := w_ops w0; w_derived_ok := w_derived_ok w0; w_noisy := w_noisy w0; w_odd_format := w_odd_format w0 |}.
Lemma w1_usual : usual w1.
Proof.
  split; try reflexivity.
  - intros u j. cbn [w1 w_fetch_schema]. destruct (str_eqb u (lit "s.json")); [|discriminate]. intros E. injection E as <-. let x := eval vm_compute in s_j in change (wf_json (JObj x)); wf.
  - intros u a j. cbn [w1 w_fetch_dialect]. destruct (str_eqb u (lit "d.json")); [|destruct (str_eqb u (lit "bad.json"))]; intros E; try discriminate E; apply Ok_inj in E; subst j;
      match goal with |- wf_json ?j => let x := eval vm_compute in j in change (wf_json x) end; wf.
Qed.
Definition t_j (dl sch : json) (more : object) : object := jo [("url", js "t.csv"); ("dialect", dl); ("tableSchema", sch)]%string ++ more.
Definition g_j (ts : list object) : object := jo [("@context", JList [js "http://www.w3.org/ns/csvw"; JObj (jo [("@language", js "en")])]); ("dc:title", js "T"); ("tables", JList (map JObj ts))]%string.
Definition quiet_g : object := g_j [tab_j; t_j (js "d.json") (js "s.json") []].
Definition loads_as (W : world pystr) (d : object) (n : nat) : Prop := wf_json (JObj d) /\ (exists o, fromvalue W (TableGroup_class W) (JObj d) = Ok o) /\ length (group_warns W (JObj d)) = n.
Ltac loads := split; [match goal with |- wf_json ?j => let x := eval vm_compute in j in change (wf_json x) end; wf|split; [eexists; vm_compute; reflexivity|vm_compute; reflexivity]].
Example c63_nonvacuous : loads_as w1 quiet_g 0 /\ group_in_order w1 quiet_g.
Proof. assert (L : loads_as w1 quiet_g 0) by loads. split; [exact L|]. destruct L as (Wf & (o & Ho) & N0). apply (c63_group _ w1 quiet_g o w1_usual Wf Ho). destruct (group_warns w1 (JObj quiet_g)); [reflexivity|discriminate N0]. Qed.
(** the linked dialect, an unknown property, a duplicate title, a language, a key without name, a number as schema, an unknown base *)
Definition cols_j (cs : list object) (more : object) : json := JObj (jo [("columns", JList (map JObj cs))]%string ++ more).
Definition one (s k : String.string) : object := jo [(s, js k)].
Example c63_nonvacuous_warnings :
  loads_as w1 (g_j [t_j (js "bad.json") (js "s.json") []]) 1 /\
  loads_as w1 (g_j [t_j JNull JNull (jo [("x", JNull)]%string)]) 1 /\
  loads_as w1 (g_j [t_j JNull (cols_j [one "titles" "T"; one "name" "T"] []) []]) 1 /\
  loads_as w1 (g_j [t_j JNull (cols_j [one "lang" "xx"] []) []]) 1 /\
  loads_as w1 (g_j [t_j JNull (cols_j [one "titles" "T"; one "name" "N"] (one "primaryKey" "T")) []]) 1 /\
  loads_as w1 (g_j [t_j JNull (JInt 5) []]) 1 /\
  loads_as w1 (g_j [t_j JNull (cols_j [jo [("name", js "N"); ("datatype", JObj (one "base" "nonsense"))]%string] []) []]) 1.
Proof. repeat match goal with |- _ /\ _ => split end; loads. Qed.

(** In order is not the same as valid by the CSVW standard.  Transformations with the properties that the standard
    demands, and two columns with neither name nor title, give warnings: *)
Definition transformation : object := jo [("url", js "x.js"); ("scriptFormat", js "http://x"); ("targetFormat", js "http://y")]%string.
Theorem c63_transformations_warn : forall B (W : world B) x, In (lit "url") (map fst x) -> ~ transformation_in_order W (JObj x).
Proof.
  intros B W x I H. destruct (H x eq_refl) as [K _ _ _]. apply in_map_iff in I. destruct I as ([k v] & E & I). cbn [fst] in E. subst k.
  destruct (K _ v I) as [(r & E)|[E|E]]; [discriminate E| |]; revert E; vm_compute; intuition discriminate.
Qed.
Print Assumptions c63_transformations_warn.
Example c63_standard_refuted :
  loads_as w1 (g_j [t_j JNull JNull (jo [("transformations", JList [JObj transformation])]%string)]) 3 /\
  loads_as w1 (g_j [t_j JNull (cols_j [one "dc:title" "A"; one "dc:title" "B"] []) []]) 1.
Proof. split; loads. Qed.
(** and some mistakes do not: *)
Example c63_mistakes_refuted :
  (* a key of a column that does not exist, "required" that is no boolean, a schema that cannot be fetched *)
  loads_as w1 (g_j [t_j JNull (cols_j [jo [("name", js "N"); ("required", js "no")]%string] (one "primaryKey" "T")) []]) 0 /\
  loads_as w1 (g_j [t_j JNull (js "nowhere.json") []]) 0 /\
  (* "header" as text, with a headerRowCount; a list of separators *)
  loads_as w1 (g_j [t_j (JObj (jo [("header", js "no"); ("headerRowCount", JInt 1)]%string)) JNull []]) 0 /\
  loads_as w1 (g_j [t_j JNull (cols_j [jo [("separator", JList [js ";"; js ","])]%string] []) []]) 0.
Proof. repeat match goal with |- _ /\ _ => split end; loads. Qed.
