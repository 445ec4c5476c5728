(** Descriptions that are loaded without a warning (C63), in terms of their JSON.  object, member, name_of, title_of, key_of, type_name ...: LoadSpec.v;
    no_defect: MetaSpec.v. *)
From Verif Require Import PyStr Dsv Json Dialects NatLang Datatype Column Meta MetaSpec Descr LoadSpec.

(** Properties that take one value silently take lists of such values as well, and lists of lists *)
Inductive nested (P : json -> Prop) : json -> Prop :=
| ne_one j : P j -> nested P j
| ne_list l : (forall x, In x l -> nested P x) -> nested P (JList l).
Definition null_or (P : json -> Prop) (j : json) : Prop := j = JNull \/ P j.
Definition is_bool (j : json) : Prop := exists b, j = JBool b.
Definition is_count (j : json) : Prop := exists z, j = JInt z /\ (0 <= z)%Z.
Definition is_word (ws : list pystr) (j : json) : Prop := exists s, j = JStr s /\ In s ws.
Definition strings_list (j : json) : Prop := exists ss, j = JList (map JStr ss).

(** What is assumed about the world: "und" is a language tag, Python knows utf-8, what is fetched is JSON, and where
    a link to a dialect leads to depends on the properties with '@' (except for the id) only *)
Record usual {B : Type} (W : world B) : Prop := {
  us_und : w_tag_ok W (lit "und") = true;
  us_utf8 : w_codec W (lit "utf-8") = CKnown;
  us_schema : forall u j, w_fetch_schema W u = Some j -> wf_json j;
  us_dialect : forall u at_ j, w_fetch_dialect W u at_ = Ok j -> wf_json j;
  us_link : forall u a a', (forall k v, k <> lit "id" -> In (k, v) a <-> In (k, v) a') -> w_fetch_dialect W u a = w_fetch_dialect W u a';
}.

Section Spec.
Context {B : Type} (W : world B).
Definition is_tag (j : json) : Prop := exists s, j = JStr s /\ w_tag_ok W s = true.

(** The parts of an object that all descriptions have in common *)
Record object_in_order (known : pystr -> Prop) (rule : pystr -> json -> Prop) (d : object) : Prop := {
  (* keys with '@' or ':', and the properties of the class *)
  oo_keys : forall k v, In (k, v) d -> (exists r, k = lit "@" ++ r) \/ In 58 k \/ known k;
  oo_id : forall v, In (lit "@id", v) d -> a_string v;
  oo_common : forall k v, In (k, v) d -> In 58 k -> (forall r, k <> lit "@" ++ r) -> no_defect (w_tag_ok W) v;
  oo_rule : forall k v, In (k, v) d -> rule k v;
}.

(** ** Datatypes *)
Definition bound_keys : list pystr := map lit ["minimum"; "maximum"; "minInclusive"; "maxInclusive"; "minExclusive"; "maxExclusive"]%string.
Definition datatype_keys : list pystr := map lit ["base"; "format"; "length"; "minLength"; "maxLength"]%string ++ bound_keys.
Definition datatype_in_order (j : json) : Prop :=
  let d := type_object j in
  truthy j = true ->
  object_in_order (fun k => In k datatype_keys) (fun k v => k = lit "base" -> is_word (map fst DATATYPES) v) d /\
  (* nothing unusual about bounds (such as INF as bound of a decimal) and format *)
  (forall k v, In k bound_keys -> In (k, v) d -> v <> JNull -> w_noisy W (type_name d) (format_of d) v = false) /\
  w_odd_format W (type_name d) (format_of d) = false /\
  (forall p c, In (type_name d) decimal_types -> pattern_in (format_of d) p -> In c p -> pattern_char c).

(** ** Inherited properties and columns *)
Definition inherited_keys : list pystr :=
  map lit ["aboutUrl"; "datatype"; "default"; "lang"; "null"; "ordered"; "propertyUrl"; "required"; "separator"; "textDirection"; "valueUrl"]%string.
Record inherited_rule (k : pystr) (v : json) : Prop := {
  ir_urls : In k (map lit ["aboutUrl"; "propertyUrl"; "valueUrl"]%string) -> null_or a_string v;
  ir_datatype : k = lit "datatype" -> datatype_in_order v;
  ir_default : k = lit "default" -> a_string v;
  ir_lang : k = lit "lang" -> is_tag v;
  ir_null : k = lit "null" -> null_or a_string v \/ strings_list v;
  ir_ordered : k = lit "ordered" -> null_or (nested is_bool) v;
  ir_separator : k = lit "separator" -> null_or (nested a_string) v;
  ir_textDirection : k = lit "textDirection" -> null_or (nested (is_word (map lit ["ltr"; "rtl"; "auto"; "inherit"]%string))) v;
}.
Definition column_keys : list pystr := inherited_keys ++ map lit ["name"; "suppressOutput"; "titles"; "virtual"]%string.
(** by language: strings or lists of strings *)
Definition titles_in_order (v : json) : Prop :=
  null_or a_string v \/ strings_list v \/
  exists kvs, v = JObj kvs /\ forall tag t, In (tag, t) kvs -> w_tag_ok W tag = true /\ (a_string t \/ strings_list t).
Record column_rule (k : pystr) (v : json) : Prop := {
  cr_inherited : inherited_rule k v;
  cr_name : k = lit "name" -> null_or (nested a_string) v;
  cr_flags : In k (map lit ["suppressOutput"; "virtual"]%string) -> nested is_bool v;
  cr_titles : k = lit "titles" -> titles_in_order v;
}.
Definition column_in_order (d : object) : Prop := object_in_order (fun k => In k column_keys) column_rule d.

(** ** Schemas *)
Definition is_virtual (d : object) : Prop := exists j, member d (lit "virtual") = Some j /\ truthy j = true.
(** what columns are compared by: name, else title; columns without are all the same *)
Inductive heading (d : object) : pystr -> Prop :=
| hd_name s : name_of false d (Some s) -> s <> [] -> heading d s
| hd_title o s : name_of false d o -> (o = None \/ o = Some []) -> title_of d (Some s) -> s <> [] -> heading d s
| hd_none o t : name_of false d o -> (o = None \/ o = Some []) -> title_of d t -> (t = None \/ t = Some []) -> heading d (lit "_col.None").
Definition nonempty_name (d : object) (n : pystr) : Prop := member d (lit "name") = Some (JStr n) /\ n <> [].
Record columns_in_order (ds : list object) : Prop := {
  co_each : forall d, In d ds -> column_in_order d;
  (* no leading underscore, no white space *)
  co_names : forall d n, In d ds -> nonempty_name d n -> ~ odd n;
  co_distinct : forall i j d d' h, (i < j)%nat -> nth_error ds i = Some d -> nth_error ds j = Some d' ->
    ~ is_virtual d -> ~ is_virtual d' -> heading d h -> ~ heading d' h;
}.
(** "primaryKey": one column or a list of columns; the last column with this key is meant *)
Definition in_primary_key (s : object) (k : pystr) : Prop :=
  exists v, member s (lit "primaryKey") = Some v /\ (v = JStr k \/ exists l, v = JList l /\ In (JStr k) l).
Definition key_columns_named (s : object) (ds : list object) : Prop :=
  forall k i d, in_primary_key s k -> nth_error ds i = Some d -> key_of false d (S i) k ->
    (forall j d', (i < j)%nat -> nth_error ds j = Some d' -> ~ key_of false d' (S j) k) -> exists n, nonempty_name d n.
Definition schema_keys : list pystr := inherited_keys ++ map lit ["columns"; "foreignKeys"; "primaryKey"; "rowTitles"]%string.
(** an empty list counts as column without properties *)
Definition column_entry (x : json) : Prop := x = JList [] \/ exists d, x = JObj d.
Record schema_rule (k : pystr) (v : json) : Prop := {
  sr_inherited : inherited_rule k v;
  sr_columns : k = lit "columns" -> exists l, v = JList l /\ forall x, In x l -> column_entry x;
  sr_foreignKeys : k = lit "foreignKeys" -> v = JNull \/ v = JObj [] \/ exists l, v = JList l /\ forall x, In x l -> exists d, x = JObj d;
}.
Definition schema_object_in_order (s : object) : Prop :=
  object_in_order (fun k => In k schema_keys) schema_rule s /\
  exists ds, columns_of s ds /\ columns_in_order ds /\ key_columns_named s ds.
(** a string is a link (that leads nowhere: see C62), numbers are not in order, other values are an empty schema *)
Definition schema_in_order (v : json) : Prop :=
  let ok j := (forall s, j = JObj s -> schema_object_in_order s) /\ (forall z, j <> JInt z) /\ (forall b, j <> JBool b) in
  (forall u j, v = JStr u -> w_fetch_schema W u = Some j -> ok j) /\ ((forall u, v <> JStr u) -> ok v).

(** ** Dialects *)
Record dialect_rule (k : pystr) (v : json) : Prop := {
  dr_encoding : k = lit "encoding" -> exists s, v = JStr s /\ w_codec W (if str_eqb s (lit "UTF-8-BOM") then lit "utf-8-sig" else s) = CKnown;
  dr_lineTerminators : k = lit "lineTerminators" -> exists l, v = JList l;
  dr_text : k = lit "delimiter" -> nested a_string v;
  dr_opt_text : In k (map lit ["quoteChar"; "commentPrefix"]%string) -> null_or (nested a_string) v;
  dr_flags : In k (map lit ["doubleQuote"; "skipBlankRows"; "skipInitialSpace"]%string) -> nested is_bool v;
  dr_counts : In k (map lit ["skipRows"; "skipColumns"; "headerRowCount"]%string) -> nested is_count v;
  dr_trim : k = lit "trim" -> nested (fun j => a_string j \/ is_bool j) v;
}.
Definition dialect_in_order (j : json) : Prop :=
  exists d, j = JObj d /\ object_in_order (fun _ => True) dialect_rule d /\
  (* "header" is overridden by a headerRowCount *)
  forall v, member d (lit "header") = Some v -> (forall n, member d (lit "headerRowCount") = Some n -> truthy n = false) -> nested is_bool v.

(** ** Tables and groups *)
Definition transformation_in_order (j : json) : Prop :=
  forall d, j = JObj d -> object_in_order (fun k => In k (lit "_parent" :: inherited_keys)) (fun _ _ => True) d.
Definition tablelike_keys : list pystr :=
  inherited_keys ++ map lit ["dialect"; "notes"; "tableDirection"; "tableSchema"; "transformations"; "url"]%string.
Record tablelike_rule (k : pystr) (v : json) : Prop := {
  tr_inherited : inherited_rule k v;
  tr_dialect : k = lit "dialect" -> v = JNull \/ a_string v \/ dialect_in_order v;
  tr_tableDirection : k = lit "tableDirection" -> nested (is_word (map lit ["rtl"; "ltr"; "auto"]%string)) v;
  tr_tableSchema : k = lit "tableSchema" -> schema_in_order v;
  tr_transformations : k = lit "transformations" -> exists l, v = JList l /\ forall x, In x l -> transformation_in_order x;
  tr_context : k = lit "@context" -> forall l c t, v = JList l -> In (JObj c) l -> member c (lit "@language") = Some t -> is_tag t;
}.
(** the dialect that "dialect" links to; at_: the properties with '@' *)
Definition linked_dialect_in_order (d : object) : Prop :=
  forall u, member d (lit "dialect") = Some (JStr u) -> exists at_ j,
    (forall k v, k <> lit "id" -> In (k, v) at_ <-> In (lit "@" ++ k, v) d) /\ w_fetch_dialect W u at_ = Ok j /\ dialect_in_order j.
Definition table_in_order (d : object) : Prop :=
  object_in_order (fun k => In k (lit "suppressOutput" :: tablelike_keys)) tablelike_rule d /\ linked_dialect_in_order d.
Record group_rule (k : pystr) (v : json) : Prop := {
  gr_tablelike : tablelike_rule k v;
  gr_tables : k = lit "tables" -> v = JStr [] \/ v = JObj [] \/ exists l, v = JList l /\ forall x, In x l -> exists d, x = JObj d /\ table_in_order d;
}.
Definition group_in_order (d : object) : Prop :=
  object_in_order (fun k => In k (lit "tables" :: tablelike_keys)) group_rule d /\ linked_dialect_in_order d.
End Spec.
