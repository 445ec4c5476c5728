(** CSVW.to_json: conversion of tables to JSON.  metadata.py:1783-1873, jsonld.py:53-88. *)
From Verif Require Import PyStr PyCsv Dsv Json Dec NatLang Column Schema Table Jsonld.

(** What is left to libraries and to other parts of the code *)
Record json_fns (V : Type) := {
  (* uritemplate's expand, as in Table.v *)
  jf_expand_row : pystr -> list (pystr * pyval V) -> res pystr;
  (* Table.expand(template, row, _row, _name, qname): metadata.py:1140-1176.  Simplified: results that are pathlib.Paths are their text *)
  jf_expand : pystr -> dict V -> nat -> option pystr -> bool -> res pystr;
  (* format_value of a value that is neither None nor a list: jsonld.py:20-50, given the column's own datatype, if there is a column *)
  jf_format : option (option (dtype V)) -> V -> res V;
  (* v == s for a str s *)
  jf_eq_str : V -> pystr -> bool;
  (* values of type str *)
  jf_as_str : V -> option pystr;
  (* json.loads(g.serialize(format='json-ld')), as in Jsonld.v *)
  jf_graph : list (triple (option V)) -> res (list jobj);
}.
Arguments jf_expand_row {V}. Arguments jf_expand {V}. Arguments jf_format {V}. Arguments jf_eq_str {V}. Arguments jf_as_str {V}. Arguments jf_graph {V}.
Section Csv2json.
Context {V : Type} (sc : scalars V) (F : json_fns V).

(** A column with its attribute suppressOutput: metadata.py:765 *)
Record jcol := { jc_col : tcol V; jc_suppress : bool }.
(** What is converted: a table, with the texts of its file.  [jt_parents]: the table and, if any, the group. *)
Record jtable := {
  jt_url : pystr;                   (* str(table.url.resolve(table.base)) *)
  jt_id : option json;              (* at_props['id'] *)
  jt_notes : json;
  jt_common : list (pystr * json);
  jt_schema : desc V;
  jt_table : desc V;
  jt_outer : list (desc V);
  jt_cols : list jcol;
  jt_row_titles : list pystr;
  jt_suppress : bool;
  jt_lang : pystr;
  jt_dialect : dialect;
  jt_file : pystr;
}.
Definition parents (t : jtable) : list (desc V) := jt_schema t :: jt_table t :: jt_outer t.

(** metadata.py:1813-1816: the columns are given their inherited propertyUrl and valueUrl *)
Definition resolve_desc (t : jtable) (d : desc V) : desc V :=
  {| de_aboutUrl := de_aboutUrl d; de_datatype := de_datatype d; de_default := de_default d; de_lang := de_lang d; de_null := de_null d;
     de_propertyUrl := inherit de_propertyUrl d (parents t); de_required := de_required d; de_separator := de_separator d;
     de_valueUrl := inherit de_valueUrl d (parents t) |}.
Definition resolve_col (t : jtable) (c : jcol) : jcol :=
  let k := tc_col (jc_col c) in
  {| jc_col := {| tc_col := {| c_desc := resolve_desc t (c_desc k); c_name := c_name k; c_titles := c_titles k; c_virtual := c_virtual k; c_number := c_number k |};
                  tc_header := tc_header (jc_col c); tc_st := tc_st (jc_col c) |};
     jc_suppress := jc_suppress c |}.
Definition jcols (t : jtable) : list jcol := map (resolve_col t) (jt_cols t).
(** :1813 OrderedDict([(col.header, col) ...]).get(k) *)
Definition col_of (cols : list jcol) (k : pystr) : option jcol :=
  dget str_eqb (dset_all str_eqb [] (map (fun c => (tc_header (jc_col c), c)) cols)) k.

(** jsonld.py:20-50: lists and None are returned as they are *)
Definition format_value (c : option jcol) (v : pyval V) : res (tree (option V)) :=
  match v with
  | PNone => Ok (One None)
  | POne x => y <- jf_format F (option_map (fun c => getdef (de_datatype (c_desc (tc_col (jc_col c)))) None) c) x ;; Ok (One (Some y))
  | PList l => Ok (Many (map One l))
  end.
(** Triple.from_col: jsonld.py:69-88 *)
Definition from_col (t : jtable) (c : option jcol) (row : dict V) (prop : pystr) (val : pyval V) (rownum : nat) : res (triple (option V)) :=
  let name := option_map (fun c => tc_header (jc_col c)) c in
  let d := option_map (fun c => c_desc (tc_col (jc_col c))) c in
  let purl := match d with Some d => de_propertyUrl d | None => inherit de_propertyUrl (jt_table t) (jt_outer t) end in
  let vurl := match d with Some d => de_valueUrl d | None => inherit de_valueUrl (jt_table t) (jt_outer t) end in
  prop <- match purl with Some u => jf_expand F u row rownum name true | None => Ok prop end ;;
  val <- match vurl with Some u => s <- jf_expand F u row rownum name (str_eqb prop (lit "rdf:type")) ;; Ok (POne (s_str sc s)) | None => Ok val end ;;
  v <- format_value c val ;;
  s <- match d with
       | Some d => match de_aboutUrl d with
                   | Some u => s <- jf_expand F u row rownum name false ;; Ok (nonempty_opt (Some s))
                   | None => Ok None
                   end
       | None => Ok None
       end ;;
  Ok {| t_about := s; t_prop := prop; t_val := v |}.

(** metadata.py:1850-1859: which cells are left out *)
Definition is_null (null : list pystr) (v : pyval V) : bool :=
  match v with
  | PNone => true
  | POne x => existsb (jf_eq_str F x) null || jf_eq_str F x []
  | PList _ => false
  end.
Definition left_out (t : jtable) (c : option jcol) (v : pyval V) : bool :=
  match c with
  | Some c => jc_suppress c || tc_virtual (jc_col c)
              || is_null (st_null (tc_st (jc_col c))) v
              || match nonempty_opt (de_separator (c_desc (tc_col (jc_col c)))), v with Some _, PList [] => true | _, _ => false end
  | None => is_null (inherit_null (jt_table t) (jt_outer t)) v
  end.
(** metadata.py:1842-1873 _describes.  [nometa]: self.no_metadata *)
Definition cell_triples (nometa : bool) (t : jtable) (row : dict V) (rownum : nat) (ikv : nat * (pystr * pyval V)) : res (list (triple (option V))) :=
  let (i, kv) := ikv in
  let c := col_of (jcols t) (fst kv) in
  if left_out t c (snd kv) then Ok []
  else x <- from_col t c row (match jt_cols t with [] => if nometa then fst kv else col_n (Some i) | _ => fst kv end) (snd kv) rownum ;; Ok [x].
Definition row_triples (nometa : bool) (t : jtable) (row : dict V) (rownum : nat) : res (list (triple (option V))) :=
  ids <- match inherit de_aboutUrl (jt_schema t) (jt_table t :: jt_outer t) with
         | Some u => s <- jf_expand F u row rownum None false ;; Ok [{| t_about := None; t_prop := lit "@id"; t_val := One (Some (s_str sc s)) |}]
         | None => Ok []
         end ;;
  cells <- mapM (cell_triples nometa t row rownum) (combine (seq 1 (length row)) row) ;;
  virt <- mapM (fun c => from_col t (Some c) row (tc_header (jc_col c)) PNone rownum) (filter (fun c => tc_virtual (jc_col c)) (jcols t)) ;;
  Ok (ids ++ concat cells ++ virt).
Definition described_object : Type := list (pystr * @oval (option V)).
Definition describes (nometa : bool) (t : jtable) (row : dict V) (rownum : nat) : res (list described_object) :=
  ts <- row_triples nometa t row rownum ;;
  group_triples (jf_graph F) (fun o => match o with Some v => jf_as_str F v | None => None end) ts.

(** metadata.py:1827-1840 _row_to_json *)
Inductive titles := TOne (v : pyval V) | TMany (l : list (pyval V)).
Record jrow := { jr_url : pystr; jr_num : nat; jr_titles : option titles; jr_describes : list described_object }.
Definition truthy_val (v : pyval V) : bool := match v with PNone | PList [] => false | POne x => s_truthy sc x | PList _ => true end.
Definition titles_of (names : list pystr) (row : dict V) : option titles :=
  match names with
  | [] => None
  | _ => Some (match filter truthy_val (map (fun n => getdef (dget str_eqb row n) PNone) names) with
               | [v] => TOne v
               | l => TMany l
               end)
  end.
Definition row_to_json (nometa : bool) (t : jtable) (row : dict V) (rownum line : nat) : res jrow :=
  ds <- describes nometa t row rownum ;;
  Ok {| jr_url := jt_url t ++ lit "#row=" ++ digits_of (N.of_nat line); jr_num := rownum; jr_titles := titles_of (jt_row_titles t) row; jr_describes := ds |}.

(** metadata.py:1800-1825 _table_to_json.  The comments are those of the reader at the end; for a file without any row they are those of an earlier
    reading, here none.  [out], [comments]: what reading the file gives *)
Inductive jout := OJson (j : json) | ORows (rows : list jrow).
Definition comments_in (d : dialect) (rows : list (list pystr)) : list pystr :=
  let r := reader_iter (Some d) rows in
  match fst r with [] => if d_header d then [] else map snd (comments (snd r)) | _ => map snd (comments (snd r)) end.
Definition comments_of (lim : N) (t : jtable) : res (list pystr) :=
  s <- reader_rows lim (Some (jt_dialect t)) kw0 (jt_file t) ;; Ok (comments_in (jt_dialect t) (fst s)).
(** r.update(to_json(props)) *)
Definition update_props (fl : bool) (res : list (pystr * jout)) (props : list (pystr * json)) : PyStr.res (list (pystr * jout)) :=
  j <- to_json fl (JObj props) ;;
  match j with
  | JObj kvs => Ok (dset_all str_eqb res (map (fun kv => (fst kv, OJson (snd kv))) kvs))
  | _ => Err ValueError
  end.
Definition table_json (nometa : bool) (t : jtable) (out : @iterout V) (comments : res (list pystr)) : res (list (pystr * jout)) :=
  let r := [(lit "url", OJson (JStr (jt_url t)))] in
  let r := match jt_id t with Some i => dset str_eqb r (lit "@id") (OJson i) | None => r end in
  r <- (if truthy (jt_notes t) then n <- to_json false (jt_notes t) ;; Ok (dset str_eqb r (lit "notes") (OJson n)) else Ok r) ;;
  r <- update_props false r (jt_common t) ;;
  rows <- mapM (fun nlr => row_to_json nometa t (snd (snd nlr)) (fst nlr) (fst (snd nlr))) (combine (seq 1 (length (io_rows out))) (io_rows out)) ;;
  match io_end out with
  | Some e => Err e
  | None =>
      cs <- comments ;;
      let r := match cs with [] => r | _ => dset str_eqb r (lit "rdfs:comment") (OJson (JList (map JStr cs))) end in
      Ok (dset str_eqb r (lit "row") (ORows rows))
  end.
Definition table_to_json (lim : N) (nometa : bool) (t : jtable) : res (list (pystr * jout)) :=
  table_json nometa t (iterdicts sc (jf_expand_row F) lim (jt_dialect t) (jt_lang t) false false (map jc_col (jcols t)) (jt_file t)) (comments_of lim t).
(** metadata.py:1783-1798 to_json; [group]: the common properties of the group, if the description is not that of a table *)
Record jgroup := { jg_common : option (list (pystr * json)); jg_tables : list jtable }.
Definition group_to_json (lim : N) (nometa : bool) (g : jgroup) : res (list (pystr * jout) * list (list (pystr * jout))) :=
  r <- match jg_common g with Some (p :: ps) => update_props true [] (p :: ps) | _ => Ok [] end ;;
  ts <- mapM (table_to_json lim nometa) (filter (fun t => negb (jt_suppress t)) (jg_tables g)) ;;
  Ok (r, ts).
(** t['row'], r['describes'][0] *)
Definition rows_of (t : list (pystr * jout)) : res (list jrow) := match dget str_eqb t (lit "row") with Some (ORows l) => Ok l | _ => Err KeyError end.
Definition first_described (r : jrow) : res described_object := match jr_describes r with o :: _ => Ok o | [] => Err IndexError end.
Definition minimal_json (lim : N) (nometa : bool) (g : jgroup) : res (list described_object) :=
  r <- group_to_json lim nometa g ;;
  ls <- mapM (fun t => rows <- rows_of t ;; mapM first_described rows) (snd r) ;;
  Ok (concat ls).
End Csv2json.
Arguments jcol : clear implicits. Arguments jtable : clear implicits. Arguments jrow : clear implicits. Arguments jgroup : clear implicits. Arguments described_object : clear implicits. Arguments titles : clear implicits. Arguments jout : clear implicits.
Arguments jc_col {V}. Arguments jc_suppress {V}. Arguments jt_url {V}. Arguments jt_id {V}. Arguments jt_notes {V}. Arguments jt_common {V}. Arguments jt_schema {V}. Arguments jt_table {V}. Arguments jt_outer {V}.
Arguments jt_cols {V}. Arguments jt_row_titles {V}. Arguments jt_suppress {V}. Arguments jt_lang {V}. Arguments jt_dialect {V}. Arguments jt_file {V}.
Arguments jr_url {V}. Arguments jr_num {V}. Arguments jr_titles {V}. Arguments jr_describes {V}. Arguments jg_common {V}. Arguments jg_tables {V}. Arguments TOne {V}. Arguments TMany {V}. Arguments OJson {V}. Arguments ORows {V}.
