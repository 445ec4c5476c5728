(** What C51 says of the conversion to JSON. *)
From Verif Require Import PyStr PyCsv Dsv DsvSpec Json Dec NatLang Column Schema Table Jsonld JsonldSpec Csv2json.

Section Spec.
Context {V : Type} (sc : scalars V) (F : json_fns V).
Implicit Types (t : jtable V) (c : jcol V) (v : pyval V) (row : dict V).
(** the column of a key of the rows *)
Definition column_of t (k : pystr) (c : option (jcol V)) : Prop :=
  match c with Some c => In c (jt_cols t) /\ tc_header (jc_col c) = k | None => forall c, In c (jt_cols t) -> tc_header (jc_col c) <> k end.
Definition jdesc c : desc V := c_desc (tc_col (jc_col c)).
(** a URL template of a column, or of the table if there is no column *)
Definition url_of (get : desc V -> option pystr) t (c : option (jcol V)) : option pystr :=
  match c with Some c => inherit get (jdesc c) (jt_schema t :: jt_table t :: jt_outer t) | None => inherit get (jt_table t) (jt_outer t) end.
Definition header_of (c : option (jcol V)) : option pystr := option_map (fun c => tc_header (jc_col c)) c.
(** values that are null: None, the empty string, what equals a null value *)
Definition null_value (nulls : list pystr) v : Prop :=
  v = PNone \/ exists x, v = POne x /\ (jf_eq_str F x [] = true \/ exists n, In n nulls /\ jf_eq_str F x n = true).
(** cells that are not output *)
Definition hidden t (c : option (jcol V)) v : Prop :=
  match c with
  | Some c => jc_suppress c = true \/ c_virtual (tc_col (jc_col c)) = true \/ null_value (st_null (tc_st (jc_col c))) v \/
              (v = PList [] /\ exists x s, de_separator (jdesc c) = Some (x :: s))
  | None => null_value (inherit_null (jt_table t) (jt_outer t)) v
  end.
(** a value as it is output *)
Inductive formatted (c : option (jcol V)) : pyval V -> tree (option V) -> Prop :=
| f_none : formatted c PNone (One None)
| f_one x y : jf_format F (option_map (fun c => getdef (de_datatype (jdesc c)) None) c) x = Ok y -> formatted c (POne x) (One (Some y))
| f_list l : formatted c (PList l) (Many (map One l)).
(** the triple for a cell, or - without value - for a virtual column: property and value are those of the templates, if there are any *)
Record cell_triple t (c : option (jcol V)) row (rownum : nat) (name : pystr) v (x : triple (option V)) : Prop := {
  ct_prop : match url_of de_propertyUrl t c with Some u => jf_expand F u row rownum (header_of c) true = Ok (t_prop x) | None => t_prop x = name end;
  ct_value : match url_of de_valueUrl t c with
             | Some u => exists s, jf_expand F u row rownum (header_of c) (str_eqb (t_prop x) (lit "rdf:type")) = Ok s /\ formatted c (POne (s_str sc s)) (t_val x)
             | None => formatted c v (t_val x)
             end;
  ct_about : match c with
             | Some c => match de_aboutUrl (jdesc c) with
                         | Some u => exists s, jf_expand F u row rownum (Some (tc_header (jc_col c))) false = Ok s /\ t_about x = match s with [] => None | _ => Some s end
                         | None => t_about x = None
                         end
             | None => t_about x = None
             end;
}.
(** the triples of a row: its '@id', the cells that are not hidden, the virtual columns *)
Definition cell_name (nometa : bool) t (i : nat) (k : pystr) : pystr := match jt_cols t with [] => if nometa then k else lit "_col." ++ digits_of (N.of_nat i) | _ => k end.
Inductive cells_described (nometa : bool) t row (rownum : nat) : nat -> dict V -> list (triple (option V)) -> Prop :=
| cd_nil i : cells_described nometa t row rownum i [] []
| cd_hidden i k v (c : option (jcol V)) l ts : column_of t k c -> hidden t c v -> cells_described nometa t row rownum (S i) l ts -> cells_described nometa t row rownum i ((k, v) :: l) ts
| cd_shown i k v (c : option (jcol V)) l x ts : column_of t k c -> ~ hidden t c v -> cell_triple t c row rownum (cell_name nometa t i k) v x ->
    cells_described nometa t row rownum (S i) l ts -> cells_described nometa t row rownum i ((k, v) :: l) (x :: ts).
Definition virtual_columns t : list (jcol V) := filter (fun c => c_virtual (tc_col (jc_col c))) (jt_cols t).
Record row_described (nometa : bool) t row (rownum : nat) (ts : list (triple (option V))) : Prop := {
  rd_parts : exists ids cells virt, ts = ids ++ cells ++ virt /\
    match inherit de_aboutUrl (jt_schema t) (jt_table t :: jt_outer t) with
    | Some u => exists s, jf_expand F u row rownum None false = Ok s /\ ids = [{| t_about := None; t_prop := lit "@id"; t_val := One (Some (s_str sc s)) |}]
    | None => ids = []
    end /\
    cells_described nometa t row rownum 1 row cells /\
    Forall2 (fun c x => cell_triple t (Some c) row rownum (tc_header (jc_col c)) PNone x) (virtual_columns t) virt;
}.
(** Tables without URL templates and virtual columns *)
Record plain t : Prop := {
  pl_schema : de_aboutUrl (jt_schema t) = None /\ de_propertyUrl (jt_schema t) = None /\ de_valueUrl (jt_schema t) = None;
  pl_outer : Forall (fun d => de_aboutUrl d = None /\ de_propertyUrl d = None /\ de_valueUrl d = None) (jt_table t :: jt_outer t);
  pl_cols : Forall (fun c => de_aboutUrl (jdesc c) = None /\ de_propertyUrl (jdesc c) = None /\ de_valueUrl (jdesc c) = None /\ c_virtual (tc_col (jc_col c)) = false) (jt_cols t);
}.
(** a row as an object: the cells that are not hidden, with their values *)
Inductive shown (nometa : bool) t : nat -> dict V -> list (pystr * tree (option V)) -> Prop :=
| sh_nil i : shown nometa t i [] []
| sh_hidden i k v (c : option (jcol V)) l o : column_of t k c -> hidden t c v -> shown nometa t (S i) l o -> shown nometa t i ((k, v) :: l) o
| sh_shown i k v (c : option (jcol V)) w l o : column_of t k c -> ~ hidden t c v -> formatted c v w -> shown nometa t (S i) l o -> shown nometa t i ((k, v) :: l) ((cell_name nometa t i k, w) :: o).
End Spec.
(** *** Tables *)
Section Tables.
Context {V : Type} (sc : scalars V) (F : json_fns V).
Implicit Types (t : jtable V).
(** the rows of the table: read without strictness; the columns have their inherited templates, so that virtual columns have values *)
Definition lax_rows (lim : N) t : @iterout V := iterdicts sc (jf_expand_row F) lim (jt_dialect t) (jt_lang t) false false (map jc_col (jcols t)) (jt_file t).
(** a value that is not false: a list with items, or a scalar that is true as bool *)
Definition not_false (v : pyval V) : Prop := match v with PNone => False | POne x => s_truthy sc x = true | PList l => l <> [] end.
(** the values of the title columns that are neither missing nor false *)
Inductive title_values (row : dict V) : list pystr -> list (pyval V) -> Prop :=
| tv_nil : title_values row [] []
| tv_take n ns v vs : dget str_eqb row n = Some v -> not_false v -> title_values row ns vs -> title_values row (n :: ns) (v :: vs)
| tv_skip n ns vs : (forall v, dget str_eqb row n = Some v -> ~ not_false v) -> title_values row ns vs -> title_values row (n :: ns) vs.
Definition titles_given (names : list pystr) (row : dict V) (ti : option (titles V)) : Prop :=
  match names with
  | [] => ti = None
  | _ => exists vs, title_values row names vs /\ ti = Some (match vs with [v] => TOne v | _ => TMany vs end)
  end.
(** the object of a row *)
Record row_converted (nometa : bool) t (n line : nat) (row : dict V) (r : jrow V) : Prop := {
  rc_url : jr_url r = jt_url t ++ lit "#row=" ++ digits_of (N.of_nat line);
  rc_num : jr_num r = n;
  rc_describes : exists ts, row_described sc F nometa t row n ts /\
    group_triples (jf_graph F) (fun o => match o with Some v => jf_as_str F v | None => None end) ts = Ok (jr_describes r);
  rc_titles : titles_given (jt_row_titles t) row (jr_titles r);
}.
(** the properties of the object of a table, given its rows and the comments in its file.  Common properties have a colon in their names *)
Record table_object (nometa : bool) t (rows : @iterout V) (cs : list pystr) (out : list (pystr * jout V)) : Prop := {
  tc_url : dget str_eqb out (lit "url") = Some (OJson (JStr (jt_url t)));
  tc_rows : io_end rows = None /\ exists objects, dget str_eqb out (lit "row") = Some (ORows objects) /\
    Forall2 (fun nlr r => row_converted nometa t (fst nlr) (fst (snd nlr)) (snd (snd nlr)) r) (combine (seq 1 (length (io_rows rows))) (io_rows rows)) objects;
  tc_notes : if truthy (jt_notes t) then exists n, to_json false (jt_notes t) = Ok n /\ dget str_eqb out (lit "notes") = Some (OJson n)
             else dget str_eqb out (lit "notes") = None;
  tc_common : forall k v, In (k, v) (jt_common t) -> k <> lit "rdfs:comment" -> exists j, to_json false v = Ok j /\ dget str_eqb out (if str_eqb k (lit "rdf:type") then lit "@type" else k) = Some (OJson j);
  tc_comments : cs <> [] -> dget str_eqb out (lit "rdfs:comment") = Some (OJson (JList (map JStr cs)));
  (* no other keys *)
  tc_keys : forall k, In k (map fst out) -> In k (map lit ["url"; "@id"; "notes"; "rdfs:comment"; "row"; "@type"]%string) \/ In k (map fst (jt_common t));
  tc_id : dget str_eqb out (lit "@id") = option_map OJson (jt_id t);
}.
(** the comments in the file: the texts of the rows that the reader for the dialect records (C04); none are known if the reader does not even yield a header *)
Definition comments_given (d : dialect) (raw : list (list pystr)) (cs : list pystr) : Prop :=
  exists kept recorded, Selected (fun lr => ~ row_is_dropped d lr) (number_rows 0 raw) kept /\ Selected (row_is_recorded d) (number_rows 0 raw) recorded /\
    if d_header d && match kept with [] => true | _ => false end then cs = [] else Forall2 (fun lr c => recorded_text d (snd lr) c) recorded cs.
Definition table_converted (lim : N) (nometa : bool) t (out : list (pystr * jout V)) : Prop :=
  exists cs, (exists raw e, reader_rows lim (Some (jt_dialect t)) kw0 (jt_file t) = Ok (raw, e) /\ comments_given (jt_dialect t) raw cs) /\
    table_object nometa t (lax_rows lim t) cs out.
End Tables.
