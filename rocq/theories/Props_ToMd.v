(** C70: what csvw2markdown prints. *)
From Verif Require Import PyStr Dsv Json Dec Dialects NatLang Datatype Meta MetaSpec MetaProofs
  Column Schema Table TableSpec Zip Locate LocateSpec LocateProofs Files Descr Load LoadSpec Warn WarnSpec
  Props_Descr Props_Load Props_Warn Props_Table Cli CliSpec Props_Cli Frictionless Markdown Props_Markdown ToMd ToMdSpec ToMdProofs3.
From Verif Require MarkdownSpec.

(** Whenever csvw2markdown prints a text, the metadata are an object, and read as a list of sections with tables the text shows what they say (shows_metadata) *)
Theorem c70_shown : forall B (W : world B) U str_of space word w env stem bound_str present url text,
  usual W -> (forall t j, wb_json w t = Some j -> wf_json j) -> space 124 = false -> word 124 = false -> MarkdownSpec.one_line_text (str_of JNull) ->
  csvw2markdown W U str_of space word w env stem bound_str present url = Ok text ->
  shows_metadata W U str_of space word w env stem bound_str present url text.
Proof. intros until text. intros Us Wj Hs Hw Hn H. exact (shown W bound_str present Us U str_of space word w env stem Wj url text Hs Hw Hn H). Qed.
Print Assumptions c70_shown.

(** *** Examples *)
From Coq Require Import String.
Local Open Scope string_scope.
Local Open Scope list_scope.
Definition print_md (md : object) (url : pystr) (files : list pystr) : res pystr :=
  csvw2markdown w1 ascii_unicode json_text is_space wordc (wv md) (envv None None) (fun u => u) (fun b => b) (fun p => str_mem p files) url.
Definition typed : object := jo [("url", js "t.csv"); ("dc:title", js "T"); ("dialect", JObj (jo [("delimiter", js ";"); ("header", JBool true)]));
  ("tableSchema", JObj (jo [("columns", JList [JObj (jo [("name", js "ID"); ("propertyUrl", js "http://e/id"); ("datatype", js "integer")]); JObj (jo [("name", js "T"); ("separator", js " "); ("datatype", JObj (jo [("base", js "string"); ("format", js "a|b")]))])]);
                            ("primaryKey", js "ID")]))].
Definition described (dialect : object) : object := jo [("@context", js "http://www.w3.org/ns/csvw"); ("dc:title", js "G")] ++ dialect ++ jo [("tables", JList [JObj typed; JObj children])].
Definition with_dialect : object := described (jo [("dialect", JObj [])]).
Definition page (l : list String.string) : pystr := join [LF] (map lit l).
Definition q (s t u : String.string) : String.string := String.append s (String.append (String (Ascii.ascii_of_N 34) t) (String (Ascii.ascii_of_N 34) u)).
Definition header : list String.string := [""; "### Columns"; ""; "Name/Property | Datatype | Description"; " --- | --- | --- "].
Definition table_page : list String.string := ["property | value"; " --- | ---"; "[dc:title](http://purl.org/dc/terms/title) | T"; ""; ""; q "**CSV dialect**: `{" "delimiter" (q ": " ";" "}`"); ""] ++ header ++
   ["[ID](http://e/id) | `integer` | Primary key"; "`T` | list of `string`<br>Valid choices:<br> `a` `b` (separated by ` `) | "; ""; q "## <a name=" "table-ccsv" "></a>Table c.csv"; ""; ""; ""] ++ header ++
   ["`ID` | `string` | "; "`ref` | `string` | References [t.csv::ID](#table-tcsv)"].
(** the hypotheses of c70_shown hold, and local metadata are named, as are files that are there *)
Example c70_nonvacuous :
  usual w1 /\ (forall t j, wb_json (wv with_dialect) t = Some j -> wf_json j) /\ MarkdownSpec.one_line_text (json_text JNull) /\
  print_md with_dialect local_md [lit "d/t.csv"] = Ok (page (["# G"; ""; "> [!NOTE]"; "> Described by [md.json](md.json)."; ""; ""; ""; ""; q "## <a name=" "table-tcsv" "></a>Table [t.csv](t.csv)"; ""; ""] ++ table_page)) /\
  print_md with_dialect web_md [lit "d/t.csv"] = Ok (page (["# G"; ""; ""; ""; ""; q "## <a name=" "table-tcsv" "></a>Table t.csv"; ""] ++ table_page)).
Proof.
  split; [exact w1_usual|]. split; [|split; [vm_compute; intuition discriminate|split; vm_compute; reflexivity]].
  intros t j. cbn [wb_json wv]. destruct (str_eqb t (lit "J")); [|discriminate]. intros E. injection E as <-. let x := eval vm_compute in with_dialect in change (wf_json (JObj x)); wf.
Qed.

(** *** What does not hold *)
(** Metadata with which csvwvalidate finds nothing wrong may have no markdown: here, one of two tables has a dialect, and the group has none *)
Theorem c70_no_dialect_refuted :
  run_md (described []) local_md (Props_Cli.text ["ID;T"; "1;a"]) (Props_Cli.text ["ID,ref"; "1,1"]) = valid /\ print_md (described []) local_md [lit "d/t.csv"] = Err AttributeError.
Proof. split; vm_compute; reflexivity. Qed.
(** and metadata of a single table have a markdown that is empty but for the description of its common properties: no section for the table *)
Definition no_group : object := jo [("@context", js "http://www.w3.org/ns/csvw")] ++ typed.
Theorem c70_single_table_refuted : exists s,
  run_md no_group local_md (Props_Cli.text ["ID;T"; "1;a"]) None = valid /\ print_md no_group local_md [lit "d/t.csv"] = Ok s /\ MarkdownSpec.do_sections (MarkdownSpec.read_document s) = [].
Proof. eexists. split; [|split]; vm_compute; reflexivity. Qed.
