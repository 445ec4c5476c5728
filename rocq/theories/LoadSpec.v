(** What the JSON of a description says about reading a table (C62).  A JSON object is its list of members. *)
From Verif Require Import PyStr Dsv Json Dialects DialectSpec NatLang Datatype DatatypeSpec Column Schema Table TableSpec Files Descr.

Definition object := list (pystr * json).
Definition member (d : object) (k : pystr) : option json := dget str_eqb d k.

(** [r]: the value of property k in the nearest object in which it has a value that is [given] *)
Inductive nearest_value (given : json -> Prop) (k : pystr) : list object -> option json -> Prop :=
| nv_none ds : (forall d j, In d ds -> member d k = Some j -> ~ given j) -> nearest_value given k ds None
| nv_some before d after j : (forall d' j', In d' before -> member d' k = Some j' -> ~ given j') ->
    member d k = Some j -> given j -> nearest_value given k (before ++ d :: after) (Some j).

(** the strings that a value of "null" stands for *)
Inductive null_strings : json -> list pystr -> Prop :=
| ns_null : null_strings JNull []
| ns_one s : null_strings (JStr s) [s]
| ns_list ss : null_strings (JList (map JStr ss)) ss.

Definition not_null (j : json) : Prop := j <> JNull.
Definition a_string (j : json) : Prop := exists s, j = JStr s.
(** other nulls than the default, [""].  Values that are neither strings nor lists of strings are ignored *)
Definition other_nulls (j : json) : Prop := exists ss, null_strings j ss /\ ss <> [[]].

(** the name of a column.  CSVW() ignores names with white space or a leading underscore *)
Definition odd (n : pystr) : Prop := (exists s, n = lit "_" ++ s) \/ exists x, In x n /\ is_space x = true.
Inductive name_of (csvw : bool) (col : object) : option pystr -> Prop :=
| nm_some n : member col (lit "name") = Some (JStr n) -> ~ (csvw = true /\ odd n) -> name_of csvw col (Some n)
| nm_odd n : member col (lit "name") = Some (JStr n) -> csvw = true -> odd n -> name_of csvw col None
| nm_none : (forall n, member col (lit "name") <> Some (JStr n)) -> name_of csvw col None.
(** the first title without language: of a string, or a list of strings *)
Inductive title_of (col : object) : option pystr -> Prop :=
| ti_one s : member col (lit "titles") = Some (JStr s) -> title_of col (Some s)
| ti_list s l : member col (lit "titles") = Some (JList (JStr s :: map JStr l)) -> title_of col (Some s)
| ti_none : (forall s, member col (lit "titles") <> Some (JStr s)) ->
            (forall l, member col (lit "titles") <> Some (JList (map JStr l))) -> title_of col None.
(** the key of a column in the dicts for rows: its name, else its title, else "_col.<n>" *)
Inductive key_of (csvw : bool) (col : object) (n : nat) : pystr -> Prop :=
| ky_name s : name_of csvw col (Some s) -> s <> [] -> key_of csvw col n s
| ky_title o s : name_of csvw col o -> (o = None \/ o = Some []) -> title_of col (Some s) -> s <> [] -> key_of csvw col n s
| ky_number o t : name_of csvw col o -> (o = None \/ o = Some []) -> title_of col t -> (t = None \/ t = Some []) ->
    key_of csvw col n (lit "_col." ++ Dec.digits_of (N.of_nat n)).

(** ** Dialects *)
(** the value of a property of a dialect, if it is suitable, else the default *)
Definition setting {A} (suitable : json -> option A) (default : A) (d : object) (k : pystr) : A :=
  match member d k with Some j => match suitable j with Some a => a | None => default end | None => default end.
Definition a_bool (j : json) : option bool := match j with JBool b => Some b | _ => None end.
Definition a_count (j : json) : option nat := match j with JInt z => if (0 <=? z)%Z then Some (Z.to_nat z) else None | _ => None end.
Definition a_text (j : json) : option pystr := match j with JStr s => Some s | _ => None end.
Definition text_or_null (j : json) : option (option pystr) := match j with JStr s => Some (Some s) | JNull => Some None | _ => None end.
(** a name of an encoding that Python knows *)
Definition an_encoding (codec : pystr -> codec_result) (j : json) : option pystr :=
  match j with
  | JStr s => match codec (if str_eqb s (lit "UTF-8-BOM") then lit "utf-8-sig" else s) with CKnown => Some s | _ => None end
  | _ => None end.
Definition a_trim (j : json) : option trimmode :=
  match j with
  | JBool true => Some TrimTrue | JBool false => Some TrimFalse
  | JStr s => if str_eqb s (lit "true") then Some TrimTrue else if str_eqb s (lit "false") then Some TrimFalse
              else if str_eqb s (lit "start") then Some TrimStart else if str_eqb s (lit "end") then Some TrimEnd else None
  | _ => None end.
Record dialect_says (codec : pystr -> codec_result) (d : object) (x : dialect) : Prop := {
  ds_encoding : d_encoding x = setting (an_encoding codec) (lit "utf-8") d (lit "encoding");
  ds_lineTerminators : match member d (lit "lineTerminators") with
                       | Some (JList l) => l = map JStr (d_lineTerminators x)
                       | _ => d_lineTerminators x = [[CR; LF]; [LF]] end;
  ds_quoteChar : d_quoteChar x = setting text_or_null (Some [34]) d (lit "quoteChar");
  ds_doubleQuote : d_doubleQuote x = setting a_bool true d (lit "doubleQuote");
  ds_skipRows : d_skipRows x = setting a_count 0%nat d (lit "skipRows");
  ds_commentPrefix : d_commentPrefix x = setting text_or_null None d (lit "commentPrefix");
  (* a headerRowCount means that there is a header *)
  ds_header : (forall j, member d (lit "headerRowCount") = Some j -> truthy j = false) -> d_header x = setting a_bool true d (lit "header");
  ds_header_count : (exists j, member d (lit "headerRowCount") = Some j /\ truthy j = true) -> d_header x = true;
  ds_headerRowCount : d_headerRowCount x = setting a_count 1%nat d (lit "headerRowCount");
  ds_delimiter : d_delimiter x = setting a_text (lit ",") d (lit "delimiter");
  ds_skipColumns : d_skipColumns x = setting a_count 0%nat d (lit "skipColumns");
  ds_skipBlankRows : d_skipBlankRows x = setting a_bool false d (lit "skipBlankRows");
  ds_skipInitialSpace : d_skipInitialSpace x = setting a_bool false d (lit "skipInitialSpace");
  ds_trim : d_trim x = setting a_trim TrimFalse d (lit "trim");
}.
(** the last '@base' in a list as '@context' *)
Inductive base_in : list json -> json -> Prop :=
| bi_none l : (forall d j, In (JObj d) l -> member d (lit "@base") <> Some j) -> base_in l JNull
| bi_last before d after j : member d (lit "@base") = Some j -> (forall d' j', In (JObj d') after -> member d' (lit "@base") <> Some j') ->
    base_in (before ++ JObj d :: after) j.

Section Spec.
Context {B V : Type} (W : world B) (dtype_of : mobj B -> dtype V).

(** What the objects [levels] - the column, the schema, the table and the group - say about the n-th column *)
Record column_described (csvw : bool) (levels : list object) (col : object) (n : nat) (c : tcol V) : Prop := {
  cd_key : key_of csvw col n (tc_header c);
  cd_virtual : (forall l, member col (lit "virtual") <> Some (JList l)) -> tc_virtual c = true <-> member col (lit "virtual") = Some (JBool true);
  cd_own_required : tc_required c = true <-> exists j, member col (lit "required") = Some j /\ truthy j = true;
  cd_required : exists r, nearest_value not_null (lit "required") levels r /\
    (st_required (tc_st c) = true <-> exists j, r = Some j /\ truthy j = true);
  cd_null : exists r, nearest_value other_nulls (lit "null") levels r /\
    match r with Some j => null_strings j (st_null (tc_st c)) | None => st_null (tc_st c) = [[]] end;
  (* not inherited *)
  cd_default : match member col (lit "default") with Some (JStr s) => st_default (tc_st c) = s | _ => st_default (tc_st c) = [] end;
  cd_separator : exists r, nearest_value a_string (lit "separator") levels r /\
    match st_separator (tc_st c) with Some s => r = Some (JStr s) /\ s <> [] | None => r = None \/ r = Some (JStr []) end;
  cd_datatype : exists r, nearest_value not_null (lit "datatype") levels r /\
    match st_datatype (tc_st c) with
    | Some t => exists j o, r = Some j /\ datatype_fromvalue W j = Ok o /\ t = dtype_of o
    | None => forall j, r = Some j -> truthy j = false
    end;
  (* not inherited here *)
  cd_valueUrl : match member col (lit "valueUrl") with
                | Some (JStr u) => de_valueUrl (c_desc (tc_col c)) = Some u
                | _ => de_valueUrl (c_desc (tc_col c)) = None end;
  cd_propertyUrl : match member col (lit "propertyUrl") with
                   | Some (JStr u) => de_propertyUrl (c_desc (tc_col c)) = Some u
                   | _ => de_propertyUrl (c_desc (tc_col c)) = None end;
}.

(** the object that the value of "tableSchema" stands for: itself, what its URL leads to, or an empty one *)
Inductive schema_object : option json -> object -> Prop :=
| so_object s : schema_object (Some (JObj s)) s
| so_link u j s : w_fetch_schema W u = Some j -> (j = JObj s \/ (forall s', j <> JObj s') /\ s = []) -> schema_object (Some (JStr u)) s
| so_other v : (forall s, v <> Some (JObj s)) -> (forall u, v <> Some (JStr u)) -> schema_object v [].
(** the objects in "columns"; a list without objects and lists stands for an empty object, other values are ignored *)
Inductive column_objects : list json -> list object -> Prop :=
| co_nil : column_objects [] []
| co_object d l ds : column_objects l ds -> column_objects (JObj d :: l) (d :: ds)
| co_empty y l ds : (forall z, In z y -> (forall d, z <> JObj d) /\ forall z', z <> JList z') -> column_objects l ds -> column_objects (JList y :: l) ([] :: ds)
| co_other x l ds : (forall d, x <> JObj d) -> (forall y, x <> JList y) -> column_objects l ds -> column_objects (x :: l) ds.
Definition columns_of (s : object) (ds : list object) : Prop :=
  match member s (lit "columns") with Some (JList l) => column_objects l ds | _ => ds = [] end.

Definition columns_described (csvw : bool) (outer : list object) (t : object) (cols : list (tcol V)) : Prop :=
  exists s ds, schema_object (member t (lit "tableSchema")) s /\ columns_of s ds /\ length cols = length ds /\
    forall i col c, nth_error ds i = Some col -> nth_error cols i = Some c ->
      column_described csvw (col :: s :: t :: outer) col (S i) c.

(** the value of "dialect": an object, or a link to one *)
Inductive dialect_described (t : object) : option dialect -> Prop :=
| dd_none : (member t (lit "dialect") = None \/ member t (lit "dialect") = Some JNull) -> dialect_described t None
| dd_object d x : member t (lit "dialect") = Some (JObj d) -> dialect_says (w_codec W) d x -> dialect_described t (Some x)
| dd_link u at_ j d x : member t (lit "dialect") = Some (JStr u) -> w_fetch_dialect W u at_ = Ok j ->
    (forall k v, k <> lit "id" -> In (k, v) at_ <-> In (lit "@" ++ k, v) t) -> (j = JObj d \/ (forall d', j <> JObj d') /\ d = []) ->
    dialect_says (w_codec W) d x -> dialect_described t (Some x)
| dd_other j x : member t (lit "dialect") = Some j -> j <> JNull -> (forall d, j <> JObj d) -> (forall u, j <> JStr u) ->
    dialect_says (w_codec W) [] x -> dialect_described t (Some x).
Definition language_of (t : object) (l : pystr) : Prop :=
  match member t (lit "lang") with
  | None => l = lit "und"
  | Some (JStr s) => l = if w_tag_ok W s then s else lit "und"
  | Some _ => False
  end.
Definition context_says (t : object) (o : option pystr) : Prop :=
  match member t (lit "@context") with
  | Some (JList l) => base_in l (match o with Some s => JStr s | None => JNull end)
  | _ => o = None
  end.
(** What the object t of a table says.  [outer]: the object of its group, if any *)
Record table_described (csvw : bool) (outer : list object) (t : object) (x : ftable V) : Prop := {
  td_url : member t (lit "url") = Some (JStr (t_url x));
  td_dialect : dialect_described t (t_dialect x);
  td_lang : language_of t (t_lang x);
  td_context : context_says t (t_ctx x);
  td_columns : columns_described csvw outer t (t_cols x);
  (* else the table is not loaded: virtual columns come last, and no name is given to two regular columns *)
  td_order : regular_first (t_cols x);
  td_names : NoDup (flat_map (fun c => if tc_virtual c then [] else match c_name (tc_col c) with None | Some [] => [] | Some n => [n] end) (t_cols x));
}.
(** the objects in "tables" *)
Inductive objects_in : list json -> list object -> Prop :=
| oi_nil : objects_in [] []
| oi_object d l ds : objects_in l ds -> objects_in (JObj d :: l) (d :: ds)
| oi_other x l ds : (forall d, x <> JObj d) -> objects_in l ds -> objects_in (x :: l) ds.
Definition tables_of (g : object) (ts : list object) : Prop :=
  match member g (lit "tables") with Some (JList l) => objects_in l ts | _ => ts = [] end.
Record group_described (csvw : bool) (g : object) (x : fgroup V) : Prop := {
  gd_tables : exists ts, tables_of g ts /\ Forall2 (table_described csvw [g]) ts (gr_tables x);
  gd_dialect : dialect_described g (gr_dialect x);
  gd_base : member g (lit "@base") = match gr_base x with Some b => Some (JStr b) | None => None end;
  gd_context : context_says g (gr_ctx x);
}.
End Spec.

(** ** Datatypes.  B: the type of values; reading and writing a text by the name of the type and its format is external (C14-C22) *)
Section Types.
Context {B : Type} (W : world B).
(** "datatype": "integer" is short for {"base": "integer"} *)
Definition type_object (j : json) : object := match j with JStr s => [(lit "base", JStr s)] | JObj d => d | _ => [] end.
(** other names than those of built-in types stand for string *)
Definition type_name (d : object) : pystr :=
  match member d (lit "base") with Some (JStr s) => if str_mem s (map fst DATATYPES) then s else lit "string" | _ => lit "string" end.
Definition format_of (d : object) : json := match member d (lit "format") with Some f => f | None => JNull end.
Definition decimal_types : list pystr :=
  map lit ["decimal"; "integer"; "int"; "unsignedInt"; "unsignedShort"; "unsignedLong"; "unsignedByte"; "short"; "long"; "byte";
           "nonNegativeInteger"; "positiveInteger"; "nonPositiveInteger"; "negativeInteger"]%string.
(** the number pattern in a format *)
Definition pattern_in (f : json) (p : pystr) : Prop :=
  (f = JStr p /\ p <> []) \/ exists kvs, f = JObj kvs /\ member kvs (lit "pattern") = Some (JStr p).
Definition pattern_char (c : N) : Prop := In c (lit "#0.,;%E-+") \/ c = 8240.
(** a number pattern with other characters than #0.,;%E-+ and per mille: the format is ignored *)
Inductive format_used (name : pystr) (f : json) : json -> Prop :=
| fu_kept : (forall p c, In name decimal_types -> pattern_in f p -> In c p -> pattern_char c) -> format_used name f f
| fu_ignored p c : In name decimal_types -> pattern_in f p -> In c p -> ~ pattern_char c -> format_used name f JNull.
Definition length_says (d : object) (k : pystr) (o : option Z) : Prop :=
  match member d k with
  | None | Some JNull => o = None
  | Some (JInt z) => o = Some z
  | Some (JBool b) => o = Some (if b then 1 else 0)%Z
  | Some j => exists z, w_py_int W j = Ok z /\ o = Some z
  end.
Definition bound_says (d : object) (k : pystr) (o : option B) : Prop :=
  match member d k with
  | None | Some JNull => o = None
  | Some j => exists b, w_parse W (type_name d) (format_of d) j = Ok b /\ o = Some b
  end.
Record facets_say (d : object) (F : facets B) : Prop := {
  fs_length : length_says d (lit "length") (fc_length F);
  fs_minLength : length_says d (lit "minLength") (fc_minLength F);
  fs_maxLength : length_says d (lit "maxLength") (fc_maxLength F);
  fs_minimum : bound_says d (lit "minimum") (fc_minimum F);
  fs_maximum : bound_says d (lit "maximum") (fc_maximum F);
  fs_minInclusive : bound_says d (lit "minInclusive") (fc_minInclusive F);
  fs_maxInclusive : bound_says d (lit "maxInclusive") (fc_maxInclusive F);
  fs_minExclusive : bound_says d (lit "minExclusive") (fc_minExclusive F);
  fs_maxExclusive : bound_says d (lit "maxExclusive") (fc_maxExclusive F);
}.
(** A text is read as the type and the format say; the value is accepted if it satisfies the facets (DatatypeSpec.satisfies) *)
Definition datatype_says (j : json) (t : dtype B) : Prop :=
  let d := type_object j in
  exists f F, Column.dt_base t = type_name d /\ format_used (type_name d) (format_of d) f /\ facets_say d F /\
    (forall s v, w_parse W (type_name d) f (JStr s) = Ok v -> (In (type_name d) bounded_types -> comparable (w_ops W) F v) ->
       (dt_reads t s = Ok v /\ satisfies (w_ops W) F v (str_mem (type_name d) bounded_types)) \/
       (dt_reads t s = Err ValueError /\ ~ satisfies (w_ops W) F v (str_mem (type_name d) bounded_types))) /\
    (forall s e, w_parse W (type_name d) f (JStr s) = Err e -> dt_reads t s = Err e) /\
    (forall v, dt_fmt t v = w_formatted W (type_name d) f v) /\ (forall s, dt_noisy t s = w_noisy W (type_name d) f (JStr s)).
End Types.
