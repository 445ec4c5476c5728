(** Reading the markdown of csvw2markdown, and what it should say. *)
From Verif Require Import PyStr Dec Json Names Frictionless Expand JsonText Markdown.

(** *** A reader *)
Definition lines_of (s : pystr) : list pystr := split [LF] s.
Definition section_start : pystr := lit "## <a name=" ++ [34] ++ lit "table-".
(** the lines before the first section, and the lines of the sections *)
Fixpoint sections (ls : list pystr) : list pystr * list (list pystr) :=
  match ls with
  | [] => ([], [])
  | l :: r => let '(pre, secs) := sections r in if startswith section_start l then ([], (l :: pre) :: secs) else (l :: pre, secs)
  end.
Fixpoint until_empty (ls : list pystr) : list pystr := match ls with [] :: _ | [] => [] | l :: r => l :: until_empty r end.
(** the rows below the header [h] and the line below that: a row is what is between vertical bars *)
Fixpoint table_below (h : pystr) (ls : list pystr) : list (list pystr) :=
  match ls with
  | [] => []
  | l :: r => if str_eqb l h then map (split (lit "|")) (until_empty (tl r)) else table_below h r
  end.
Definition property_header : pystr := lit "property | value".
Definition column_header : pystr := lit "Name/Property | Datatype | Description".
Record section := { se_lines : list pystr; se_header : pystr; se_props : list (list pystr); se_cols : list (list pystr) }.
Record document := { do_lines : list pystr; do_first : pystr; do_props : list (list pystr); do_sections : list section }.
Definition read_section (ls : list pystr) : section :=
  {| se_lines := ls; se_header := hd [] ls; se_props := table_below property_header ls; se_cols := table_below column_header ls |}.
Definition read_document (s : pystr) : document :=
  let '(pre, secs) := sections (lines_of s) in
  {| do_lines := pre; do_first := hd [] pre; do_props := table_below property_header pre; do_sections := map read_section secs |}.

(** *** What a document says *)
Section Says.
Variable U : unicode.
Variable str_of : json -> pystr.
Variables space word : N -> bool.
(** the cells of a row of the source, with the spaces around the bars *)
Definition row2 (a b : pystr) : list pystr := [a ++ lit " "; lit " " ++ b].
Definition row3 (a b c : pystr) : list pystr := [a ++ lit " "; lit " " ++ b ++ lit " "; lit " " ++ c].
Definition parts (l : list (option pystr)) : list pystr := concat (map (fun o => match o with Some s => [s] | None => [] end) l).
Definition quoted (s : pystr) : pystr := lit "`" ++ s ++ lit "`".
(** a list of choices: words and spaces between vertical bars *)
Definition choices (f : pystr) : Prop := Forall (fun w => w <> [] /\ Forall (fun c => word c = true \/ space c = true) w) (split (lit "|") f).
(** the datatype: its base, the format (choices, or a regular expression for strings), the bounds that are not zero *)
Definition format_says (d : mdatatype) (l : list pystr) : Prop :=
  match md_format d with
  | JStr f => (choices f /\ l = [lit "Valid choices:"; concat (map (fun w => lit " " ++ quoted w) (split (lit "|") f))])
              \/ (~ choices f /\ f <> [] /\ md_base d = lit "string" /\ l = [lit "Regex: " ++ quoted f])
              \/ (~ choices f /\ (f = [] \/ md_base d <> lit "string") /\ l = [])
  | _ => l = []
  end.
Definition bound_says (label : pystr) (b : option (bool * pystr)) : option pystr := match b with Some (true, m) => Some (label ++ m) | _ => None end.
Definition datatype_says (c : mcol) (cell : pystr) : Prop :=
  exists inner,
    match mc_datatype c with
    | None => inner = quoted (lit "string")
    | Some d => exists f, format_says d f /\ inner = join (lit "<br>") (quoted (md_base d) :: f ++ parts [bound_says (lit "&ge; ") (md_min d); bound_says (lit "&le; ") (md_max d)])
    end
    /\ match mc_sep c with
       | None | Some [] => cell = inner
       | Some s => cell = lit "list of " ++ inner ++ lit " (separated by " ++ quoted s ++ lit ")"
       end.
(** the last foreign key with just this column *)
Definition refers_to (fks : list mfk) (col : pystr) (target : mfk) : Prop :=
  exists l1 l2, fks = l1 ++ target :: l2 /\ mf_cols target = [col] /\ Forall (fun k => mf_cols k <> [col]) l2.
(** the text of a link to the section of a table *)
Definition link_to (tab col anchor : pystr) : pystr := lit "References [" ++ tab ++ lit "::" ++ col ++ lit "](#table-" ++ anchor ++ lit ")".
Definition reference_says (t : mtable) (c : mcol) (o : option pystr) : Prop :=
  (exists n k tab col cols a, mc_name c = Some n /\ refers_to (mt_fks t) n k /\ mf_resource k = Some tab /\ mf_refcols k = col :: cols
                              /\ slug U true true tab = Ok a /\ o = Some (link_to tab col a))
  \/ ((forall n k, mc_name c = Some n -> ~ refers_to (mt_fks t) n k) /\ o = None).
(** newlines in a description are shown as spaces *)
Definition spaced (s : pystr) : pystr := map (fun c => if c =? LF then SPACE else c) s.
Definition description_says (c : mcol) (o : option pystr) : Prop :=
  o = match fget (mc_props c) "dc:description" with Some (JStr s) => match s with [] => None | _ => Some (spaced s) end | _ => None end.
Definition key_says (t : mtable) (c : mcol) (o : option pystr) : Prop :=
  (exists n, mc_name c = Some n /\ In n (mt_pk t) /\ o = Some (lit "Primary key"))
  \/ ((forall n, mc_name c = Some n -> ~ In n (mt_pk t)) /\ o = None).
Definition name_says (c : mcol) : pystr :=
  let n := match mc_name c with Some n => n | None => lit "None" end in
  match mc_url c with Some u => lit "[" ++ n ++ lit "](" ++ u ++ lit ")" | None => quoted n end.
Definition column_says (t : mtable) (c : mcol) (row : list pystr) : Prop :=
  exists dt d k r, datatype_says c dt /\ description_says c d /\ key_says t c k /\ reference_says t c r
                   /\ row = row3 (name_says c) dt (join (lit "<br>") (parts [d; k; r])).
(** the properties that have a row, in order *)
Definition listed (not_listed : list pystr) (props : jdict) : jdict :=
  filter (fun kv => truthy (snd kv) && negb (str_mem (fst kv) not_listed)) props.
(** a key: a QName with one of the known prefixes is a link (html or markdown) *)
Definition key_shown (html : bool) (q shown : pystr) : Prop :=
  (shown = q /\ forall p u l, In (p, u) url_prefixes -> q <> p ++ lit ":" ++ l)
  \/ exists p u l url, In (p, u) url_prefixes /\ q = p ++ lit ":" ++ l /\ (~ In 58 l -> url = u ++ l)
       /\ shown = if html then lit "<a href=" ++ [34] ++ url ++ [34] ++ lit ">" ++ q ++ lit "</a>" else lit "[" ++ q ++ lit "](" ++ url ++ lit ")".
Definition escaped (s : pystr) : pystr :=
  flat_map (fun c => if c =? 38 then lit "&amp;" else if c =? 60 then lit "&lt;" else if c =? 62 then lit "&gt;" else if c =? 34 then lit "&quot;" else if c =? 39 then lit "&#x27;" else [c]) s.
Definition text_of (v : json) : pystr := match v with JStr s => s | _ => str_of v end.
Inductive shown : json -> pystr -> Prop :=
| sh_scalar v : (forall l, v <> JList l) -> (forall d, v <> JObj d) -> shown v (text_of v)
| sh_list l ts : Forall2 shown l ts -> shown (JList l) (lit "<ol>" ++ concat (map (fun t => lit "<li>" ++ t ++ lit "</li>") ts) ++ lit "</ol>")
| sh_obj d ts : Forall2 (fun kv k => key_shown true (fst kv) k) d ts ->
    shown (JObj d) (lit "<dl>" ++ concat (map (fun p => lit "<dt>" ++ snd p ++ lit "</dt><dd>" ++ escaped (text_of (snd (fst p))) ++ lit "</dd>") (combine d ts)) ++ lit "</dl>").
Definition property_says (kv : pystr * json) (row : list pystr) : Prop :=
  exists k v, key_shown false (fst kv) k /\ shown (snd kv) v /\ row = row2 k v.
Definition shown_elsewhere : list pystr := [lit "dc:description"; lit "https://schema.org/image"].
(** the description and the image are shown in full *)
Definition description_shown (props : jdict) (lines : list pystr) : Prop :=
  forall s, fget props "dc:description" = Some (JStr s) -> s <> [] -> exists before after, lines = before ++ lines_of s ++ after.
Definition image_shown (props : jdict) (lines : list pystr) : Prop :=
  forall d, fget props "https://schema.org/image" = Some (JObj d) -> d <> [] ->
  In (lit "![" ++ match fget d "https://schema.org/caption" with Some c => if truthy c then text_of c else [] | None => [] end ++ lit "]("
      ++ match fget d "https://schema.org/contentUrl" with Some u => text_of u | None => text_of JNull end ++ lit ")") lines.
(** the dialect of the table, or else that of the group, as JSON *)
Definition dialect_shown (g : mgroup) (t : mtable) (lines : list pystr) : Prop :=
  forall d, (mt_dialect t = Some d \/ (mt_dialect t = None /\ mg_dialect g = Some d)) -> d <> [] -> In (lit "**CSV dialect**: " ++ quoted (dumps one_line (JObj d))) lines.
Definition note_shown (g : mgroup) (link : bool) (lines : list pystr) : Prop :=
  forall f, mg_fname g = Some f -> link = true -> In (lit "> Described by [" ++ f ++ lit "](" ++ f ++ lit ").") lines.
Definition header_says (g : mgroup) (link : bool) (t : mtable) (line : pystr) : Prop :=
  exists a, slug U true true (mt_url t) = Ok a
            /\ (line = section_start ++ a ++ [34] ++ lit "></a>Table " ++ mt_url t
                \/ (link = true /\ mt_exists t = true /\ line = section_start ++ a ++ [34] ++ lit "></a>Table [" ++ mt_url t ++ lit "](" ++ mt_url t ++ lit ")")).
Record section_says (g : mgroup) (link : bool) (t : mtable) (s : section) : Prop := {
  ss_header : header_says g link t (se_header s);
  ss_desc : description_shown (mt_props t) (se_lines s);
  ss_image : image_shown (mt_props t) (se_lines s);
  ss_dialect : dialect_shown g t (se_lines s);
  ss_props : Forall2 property_says (listed shown_elsewhere (mt_props t)) (se_props s);
  ss_cols : Forall2 (column_says t) (mt_cols t) (se_cols s)
}.
Record document_says (g : mgroup) (link : bool) (d : document) : Prop := {
  ds_first : do_first d = lit "# " ++ match fget (mg_props g) "dc:title" with Some v => text_of v | None => lit "Dataset" end;
  ds_note : note_shown g link (do_lines d);
  ds_desc : description_shown (mg_props g) (do_lines d);
  ds_image : image_shown (mg_props g) (do_lines d);
  ds_props : Forall2 property_says (listed (lit "dc:title" :: shown_elsewhere) (mg_props g)) (do_props d);
  ds_sections : Forall2 (section_says g link) (mg_tables g) (do_sections d)
}.

(** *** The texts that do not disturb the layout *)
Definition one_line_text (s : pystr) : Prop := ~ In LF s.
Definition cell_text (s : pystr) : Prop := ~ In LF s /\ ~ In 124 s.
(** no line of the text is a header *)
Definition quiet (s : pystr) : Prop :=
  Forall (fun l => startswith section_start l = false /\ l <> property_header /\ l <> column_header) (lines_of s).
Fixpoint tidy_value (v : json) : Prop :=
  match v with
  | JStr s => cell_text s
  | JList l => (fix all l := match l with [] => True | x :: r => tidy_value x /\ all r end) l
  | JObj d => Forall (fun kv => cell_text (fst kv) /\ cell_text (text_of (snd kv))) d
  | _ => cell_text (str_of v)
  end.
(** floats are written in one line *)
Fixpoint tidy_floats (v : json) : Prop :=
  match v with
  | JFloat r => one_line_text r
  | JList l => (fix all l := match l with [] => True | x :: r => tidy_floats x /\ all r end) l
  | JObj d => (fix all d := match d with [] => True | (_, x) :: r => tidy_floats x /\ all r end) d
  | _ => True
  end.
Definition tidy_property (kv : pystr * json) : Prop :=
  if str_eqb (fst kv) (lit "dc:description") then match snd kv with JStr s => quiet s | _ => True end
  else if str_eqb (fst kv) (lit "https://schema.org/image") then
    match snd kv with
    | JObj d => Forall (fun kv => one_line_text (text_of (snd kv))) d
    | _ => True
    end
  else startswith (lit "#") (fst kv) = false /\ cell_text (fst kv) /\ tidy_value (snd kv).
Record tidy_column (c : mcol) : Prop := {
  tc_name : cell_text (match mc_name c with Some n => n | None => [] end);
  tc_url : cell_text (match mc_url c with Some u => u | None => [] end);
  tc_sep : cell_text (match mc_sep c with Some u => u | None => [] end);
  tc_desc : forall s, fget (mc_props c) "dc:description" = Some (JStr s) -> ~ In 124 s;
  tc_datatype : forall d, mc_datatype c = Some d ->
     cell_text (md_base d) /\ (forall f, md_format d = JStr f -> ~ In LF f /\ (choices f \/ ~ In 124 f))
     /\ (forall b m, md_min d = Some (b, m) \/ md_max d = Some (b, m) -> cell_text m)
}.
Record tidy_table (t : mtable) : Prop := {
  tt_url : one_line_text (mt_url t);
  tt_dict : NoDup (map fst (mt_props t));
  tt_props : Forall tidy_property (mt_props t);
  tt_dialect : forall d, mt_dialect t = Some d -> tidy_floats (JObj d);
  tt_fks : Forall (fun k => Forall cell_text (mf_refcols k) /\ forall r, mf_resource k = Some r -> cell_text r) (mt_fks t);
  tt_cols : Forall tidy_column (mt_cols t)
}.
Record tidy_group (g : mgroup) : Prop := {
  tg_title : one_line_text (match fget (mg_props g) "dc:title" with Some v => text_of v | None => [] end);
  tg_fname : forall f, mg_fname g = Some f -> one_line_text f;
  tg_dialect : forall d, mg_dialect g = Some d -> tidy_floats (JObj d);
  tg_dict : NoDup (map fst (mg_props g));
  tg_props : Forall (fun kv => fst kv = lit "dc:title" \/ tidy_property kv) (mg_props g);
  tg_tables : Forall tidy_table (mg_tables g)
}.

(** *** What can be rendered *)
Definition description_text (props : jdict) : Prop := forall v, fget props "dc:description" = Some v -> exists s, v = JStr s.
Record renderable_props (props : jdict) : Prop := {
  rp_desc : forall v, fget props "dc:description" = Some v -> truthy v = true -> exists s, v = JStr s;
  rp_image : forall v, fget props "https://schema.org/image" = Some v -> truthy v = true -> (exists s, v = JStr s) \/ exists d, v = JObj d
}.
Definition has_slug (s : pystr) : Prop := exists a, slug U true true s = Ok a.
Record renderable_table (g : mgroup) (t : mtable) : Prop := {
  rt_url : has_slug (mt_url t);
  rt_props : renderable_props (mt_props t);
  rt_dialect : mt_dialect t <> None \/ mg_dialect g <> None;
  rt_fks : forall k c, In k (mt_fks t) -> mf_cols k = [c] -> mf_refcols k <> [] /\ exists r, mf_resource k = Some r;
  rt_refs : forall c n k r, In c (mt_cols t) -> mc_name c = Some n -> refers_to (mt_fks t) n k -> mf_resource k = Some r -> has_slug r;
  rt_formats : forall c d, In c (mt_cols t) -> mc_datatype c = Some d -> truthy (md_format d) = true -> exists f, md_format d = JStr f;
  rt_descs : forall c, In c (mt_cols t) -> description_text (mc_props c)
}.
Definition renderable (g : mgroup) : Prop := renderable_props (mg_props g) /\ Forall (renderable_table g) (mg_tables g).
End Says.
