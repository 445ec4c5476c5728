(** C69: what csvw2json prints. *)
From Verif Require Import PyStr Dsv Json Dec Dialects NatLang Datatype Meta MetaSpec MetaProofs
  Column Schema Table TableSpec Zip Locate LocateSpec LocateProofs Files Jsonld Csv2json Csv2jsonSpec Descr Load LoadSpec Warn WarnSpec QuietSpec Group GroupSpec
  Props_Descr Props_Load Props_Warn Props_Table Cli CliSpec ToJson ToJsonSpec ToJsonProofs3 Props_Cli.
From Verif Require JsonText.

(** Whenever csvw2json prints a text, it is the one described by [prints]: the JSON of the tables, rows and cells that the metadata found (C53) and the files say *)
Theorem c69_printed : forall B V (W : world B) (dtype_of : mobj B -> dtype V) sc F lim w env fs stem shows url text,
  usual W -> (forall t j, wb_json w t = Some j -> wf_json j) ->
  csvw2json W dtype_of sc F lim w env fs stem shows url = Ok text ->
  prints W dtype_of sc F lim w env fs stem shows url text.
Proof. intros until text. intros Us Wj H. exact (printed W dtype_of sc F lim w env fs stem Us Wj shows url text H). Qed.
Print Assumptions c69_printed.

(** *** Examples *)
From Coq Require Import String.
Local Open Scope string_scope.
Local Open Scope list_scope.
(** texts that start with 20 stand for dates: in a cell they are formatted, json.dumps does not take them *)
Definition is_date (v : pystr) : bool := startswith (lit "20") v.
Definition Fv (url : pystr) : json_fns pystr := {|
  jf_expand_row := fun t _ => Ok t;
  jf_expand := fun t d n name q => Ok (url ++ t ++ match name with Some x => x | None => [] end);
  jf_format := fun _ v => Ok (if is_date v then lit "on " ++ v else v);
  jf_eq_str := str_eqb; jf_as_str := fun v => Some v; jf_graph := fun _ => Err OtherError |}.
Definition showsv (v : pystr) : option json := if is_date v then None else Some (JStr v).
Definition print_json (md : object) (url : pystr) (t c : option pystr) : res pystr :=
  csvw2json w1 (load_dtype w1) sc1 Fv 131072 (wv md) (envv t c) (fsv t c) (fun u => u) showsv url.
(** a group with notes, common properties, titles of rows, a suppressed column, a list; the second table is suppressed *)
Definition ex_table : object := jo [("url", js "t.csv"); ("notes", JList [js "n"]); ("dc:title", js "T");
  ("tableSchema", JObj (jo [("aboutUrl", js "#r"); ("rowTitles", js "T");
     ("columns", JList [JObj (jo [("name", js "ID"); ("propertyUrl", js "#p")]); JObj (jo [("name", js "T"); ("separator", js " ")]); JObj (jo [("name", js "X"); ("suppressOutput", JBool true)])])]))].
Definition ex_group : object := jo [("@context", js "http://www.w3.org/ns/csvw"); ("dc:title", js "G"); ("tables", JList [JObj ex_table; JObj (children ++ jo [("suppressOutput", JBool true)])])].
Definition ex_file : option pystr := text ["ID,T,X"; "1,x y,z"; "2,,"].
Definition ex_text : res pystr := print_json ex_group local_md ex_file None.
Definition jtext (s : String.string) : json := JStr (lit s).
Definition ex_row (n : Z) (line : String.string) (titles : list String.string) (cells : object) : json :=
  JObj (jo [("url", JStr (lit "d/t.csv#row=" ++ lit line)); ("rownum", JInt n); ("titles", JList (map jtext titles)); ("describes", JList [JObj (jo [("@id", jtext "d/t.csv#r")] ++ cells)])]).
Definition ex_json : json :=
  JObj (jo [("dc:title", jtext "G"); ("tables", JList [JObj (jo [("url", jtext "d/t.csv"); ("notes", JList [jtext "n"]); ("dc:title", jtext "T");
    ("row", JList [ex_row 1 "2" ["x"; "y"] (jo [("d/t.csv#pID", jtext "1"); ("T", JList [jtext "x"; jtext "y"])]);
                   ex_row 2 "3" [] (jo [("d/t.csv#pID", jtext "2")])])])])]).
Example c69_nonvacuous :
  usual w1 /\ (forall t j, wb_json (wv ex_group) t = Some j -> wf_json j) /\ ex_text = Ok (JsonText.dumps JsonText.indented ex_json).
Proof.
  split; [exact w1_usual|]. split; [|vm_compute; reflexivity].
  intros t j. cbn [wb_json wv]. destruct (str_eqb t (lit "J")); [|discriminate]. intros E. injection E as <-. let x := eval vm_compute in ex_group in change (wf_json (JObj x)); wf.
Qed.

(** *** What does not hold *)
Definition dated (sep : bool) (titles : json) : object := jo [("@context", js "http://www.w3.org/ns/csvw"); ("url", js "t.csv");
  ("tableSchema", JObj (jo [("rowTitles", titles); ("columns", JList [JObj (jo [("name", js "T")] ++ if sep then jo [("separator", js " ")] else [])])]))].
Definition date_file : option pystr := text ["T"; "2020-01-01"].
Definition one_cell (s : String.string) : json :=
  JObj (jo [("tables", JList [JObj (jo [("url", jtext "d/t.csv"); ("row", JList [JObj (jo [("url", jtext "d/t.csv#row=2"); ("rownum", JInt 1); ("describes", JList [JObj (jo [("T", jtext s)])])])])])])]).
(** A date is written as text if it is the value of a cell; in a list, or as the title of a row, it makes csvw2json fail *)
Theorem c69_dates_refuted :
  print_json (dated false (JList [])) local_md date_file None = Ok (JsonText.dumps JsonText.indented (one_cell "on 2020-01-01")) /\
  print_json (dated true (JList [])) local_md date_file None = Err TypeError /\
  print_json (dated false (js "T")) local_md date_file None = Err TypeError.
Proof. split; [|split]; vm_compute; reflexivity. Qed.
Print Assumptions c69_dates_refuted.
