(** csvw2markdown: utils.py:122-230, and html.escape of Python 3.11.
    [U]: unicodedata and str.lower; [str_of]: str() of the values of common properties; [space], [word]: the characters of \s and \w. *)
From Verif Require Import PyStr Dec Dsv Json Names Column Regex JsonText Frictionless Expand.

(** What the function reads of a table group.  Simplified: minimum and maximum of a datatype are given by their truth value and str();
    the dialects are given by asdict(), and is tg._fname.parent.joinpath(url).exists() by [mt_exists]. *)
Record mdatatype := { md_base : pystr; md_format : json; md_min : option (bool * pystr); md_max : option (bool * pystr) }.
Record mcol := { mc_name : option pystr; mc_url : option pystr; mc_datatype : option mdatatype; mc_sep : option pystr; mc_props : jdict }.
Record mfk := { mf_cols : list pystr; mf_refcols : list pystr; mf_resource : option pystr }.
Record mtable := { mt_url : pystr; mt_props : jdict; mt_dialect : option jdict; mt_datatype : option mdatatype; mt_exists : bool;
                   mt_pk : list pystr; mt_fks : list mfk; mt_cols : list mcol }.
Record mgroup := { mg_props : jdict; mg_fname : option pystr; mg_dialect : option jdict; mg_tables : list mtable }.

Section Markdown.
Variable U : unicode.
Variable str_of : json -> pystr.
Variables space word : N -> bool.

(** str(v) *)
Definition py_str (v : json) : pystr := match v with JStr s => s | _ => str_of v end.
(** html/__init__.py:12-25 html.escape(s) *)
Definition html_escape (s : pystr) : pystr :=
  replace (lit "'") (lit "&#x27;") (replace [34] (lit "&quot;") (replace (lit ">") (lit "&gt;") (replace (lit "<") (lit "&lt;") (replace (lit "&") (lit "&amp;") s)))).
(** utils.py:130-136 *)
Definition qname2link (q : pystr) (html : bool) : pystr :=
  match qname2url q with
  | Some url => if html then lit "<a href=" ++ [34] ++ url ++ [34] ++ lit ">" ++ q ++ lit "</a>" else lit "[" ++ q ++ lit "](" ++ url ++ lit ")"
  | None => q
  end.
(** utils.py:138-151 *)
Fixpoint htmlify (v : json) : pystr :=
  match v with
  | JList l => lit "<ol>" ++ concat (map (fun x => lit "<li>" ++ htmlify x ++ lit "</li>") l) ++ lit "</ol>"
  | JObj d => lit "<dl>" ++ concat (map (fun kv => lit "<dt>" ++ qname2link (fst kv) true ++ lit "</dt><dd>" ++ html_escape (py_str (snd kv)) ++ lit "</dd>") d) ++ lit "</dl>"
  | _ => py_str v
  end.
(** utils.py:159-165: the image property *)
Definition image (v : json) : res pystr :=
  d <- (match v with JStr s => Ok [(lit "contentUrl", JStr s)] | JObj d => Ok d | _ => Err AttributeError end) ;;
  let caption := match fget d "https://schema.org/caption" with Some c => if truthy c then py_str c else [] | None => [] end in
  let url := py_str (match fget d "https://schema.org/contentUrl" with Some u => u | None => JNull end) in
  Ok (lit "![" ++ caption ++ lit "](" ++ url ++ lit ")" ++ [LF]).
(** utils.py:153-170 *)
Definition properties (props : jdict) : res pystr :=
  let props := filter (fun kv => truthy (snd kv)) props in
  desc <- (match fget props "dc:description" with None => Ok [] | Some (JStr s) => Ok [s ++ [LF]] | Some _ => Err TypeError end) ;;
  img <- (match fget props "https://schema.org/image" with None => Ok [] | Some v => s <- image v ;; Ok [s] end) ;;
  let rest := filter (fun kv => negb (str_eqb (fst kv) (lit "dc:description") || str_eqb (fst kv) (lit "https://schema.org/image"))) props in
  let rows := match rest with
              | [] => []
              | _ => (lit "property | value" ++ [LF] ++ lit " --- | ---") :: map (fun kv => qname2link (fst kv) false ++ lit " | " ++ htmlify (snd kv)) rest
              end in
  Ok (join [LF] (desc ++ img ++ rows) ++ [LF]).

(** utils.py:176: the expression [\w\s]+(\|[\w\s]+)* *)
Definition choice_chars : regex := RRep (RSet false [CClass KWord false; CClass KSpace false]) 1 None.
Definition choices_regex : regex := RSeq choice_chars (RRep (RSeq (RSet false [CRange 124 124]) choice_chars) 0 None).
(** re.fullmatch *)
Definition fullmatch (r : regex) (s : pystr) : bool := mtch (fun _ => false) space word r true s (fun _ t => match t with [] => true | _ => false end).
(** utils.py:173-186: the datatype of a column *)
Definition datatype_cell (c : mcol) : res pystr :=
  dt <- (match mc_datatype c with
         | None => Ok (lit "`string`")
         | Some d =>
             let dt := lit "`" ++ md_base d ++ lit "`" in
             dt <- (if truthy (md_format d) then
                      match md_format d with
                      | JStr f => Ok (if fullmatch choices_regex f then dt ++ lit "<br>Valid choices:<br>" ++ concat (map (fun w => lit " `" ++ w ++ lit "`") (split (lit "|") f))
                                      else if str_eqb (md_base d) (lit "string") then dt ++ lit "<br>Regex: `" ++ f ++ lit "`" else dt)
                      | _ => Err TypeError
                      end
                    else Ok dt) ;;
             let dt := match md_min d with Some (true, m) => dt ++ lit "<br>&ge; " ++ m | _ => dt end in
             Ok (match md_max d with Some (true, m) => dt ++ lit "<br>&le; " ++ m | _ => dt end)
         end) ;;
  Ok (match mc_sep c with Some (x :: r) => lit "list of " ++ dt ++ lit " (separated by `" ++ (x :: r) ++ lit "`)" | _ => dt end).
(** utils.py:187-196; fks: what a column refers to: (column, table) *)
Definition name_of (c : mcol) : pystr := match mc_name c with Some n => n | None => lit "None" end.
Definition desc_cell (c : mcol) (fks : list (pystr * (pystr * pystr))) (pk : list pystr) : res pystr :=
  desc <- (match fget (mc_props c) "dc:description" with None => Ok [] | Some (JStr s) => Ok (replace [LF] (lit " ") s) | Some _ => Err AttributeError end) ;;
  let br s := match s with [] => [] | _ => s ++ lit "<br>" end in
  let desc := if match mc_name c with Some n => str_mem n pk | None => false end then br desc ++ lit "Primary key" else desc in
  match match mc_name c with Some n => dget str_eqb fks n | None => None end with
  | Some (col, tab) => a <- slug U true true tab ;; Ok (br desc ++ lit "References [" ++ tab ++ lit "::" ++ col ++ lit "](#table-" ++ a ++ lit ")")
  | None => Ok desc
  end.
(** utils.py:172-203 *)
Definition colrow (c : mcol) (fks : list (pystr * (pystr * pystr))) (pk : list pystr) : res pystr :=
  dt <- datatype_cell c ;;
  desc <- desc_cell c fks pk ;;
  let name := match mc_url c with Some u => lit "[" ++ name_of c ++ lit "](" ++ u ++ lit ")" | None => lit "`" ++ name_of c ++ lit "`" end in
  Ok (join (lit " | ") [name; dt; desc]).

(** utils.py:212-214: the foreign keys of one column; a later one replaces an earlier one *)
Definition fk_entry (k : mfk) : res (list (pystr * (pystr * pystr))) :=
  match mf_cols k with
  | [c] => match mf_refcols k with
           | [] => Err IndexError
           | rc :: _ => match mf_resource k with None => Err AttributeError | Some t => Ok [(c, (rc, t))] end
           end
  | _ => Ok []
  end.
Definition fks_of (t : mtable) : res (list (pystr * (pystr * pystr))) := l <- mapM fk_entry (mt_fks t) ;; Ok (rev (concat l)).
(** utils.py:211-229 *)
Definition table_md (g : mgroup) (link : bool) (t : mtable) : res (list pystr) :=
  fks <- fks_of t ;;
  a <- slug U true true (mt_url t) ;;
  let header := lit "## <a name=" ++ [34] ++ lit "table-" ++ a ++ [34] ++ lit "></a>Table " in
  let header := if link && (match mg_fname g with Some _ => true | None => false end) && mt_exists t
                then header ++ lit "[" ++ mt_url t ++ lit "](" ++ mt_url t ++ lit ")" ++ [LF]
                else header ++ mt_url t in
  props <- properties (mt_props t) ;;
  (* metadata.py:736-741 inherit: None if neither the table nor the group has a dialect *)
  dialect <- (match mt_dialect t with Some d => Ok d | None => match mg_dialect g with Some d => Ok d | None => Err AttributeError end end) ;;
  let dialect := match dialect with [] => [] | _ => [[LF] ++ lit "**CSV dialect**: `" ++ dumps one_line (JObj dialect) ++ lit "`" ++ [LF]] end in
  rows <- mapM (fun c => colrow c fks (mt_pk t)) (mt_cols t) ;;
  Ok ([[LF] ++ header ++ [LF]; props] ++ dialect ++ [[LF] ++ lit "### Columns" ++ [LF]; lit "Name/Property | Datatype | Description"; lit " --- | --- | --- "] ++ rows).
(** utils.py:205-230 metadata2markdown(tg, link_files) *)
Definition metadata2markdown (g : mgroup) (link : bool) : res pystr :=
  let title := py_str (match fget (mg_props g) "dc:title" with Some t => t | None => JStr (lit "Dataset") end) in
  let note := match mg_fname g with
              | Some f => if link then [lit "> [!NOTE]" ++ [LF] ++ lit "> Described by [" ++ f ++ lit "](" ++ f ++ lit ")." ++ [LF]] else []
              | None => []
              end in
  props <- properties (filter (fun kv => negb (str_eqb (fst kv) (lit "dc:title"))) (mg_props g)) ;;
  tables <- mapM (table_md g link) (mg_tables g) ;;
  Ok (join [LF] ([lit "# " ++ title ++ [LF]] ++ note ++ [props] ++ concat tables)).
End Markdown.
