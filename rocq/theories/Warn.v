(** Warnings issued while descriptions are built from JSON: metadata.py:254-277, 320-352, 375-467, 520-620, 680-800,
    855-986, 989-1077, 1463-1493; utils.py:18-27; dsv_dialects.py:34-117.

    The functions here follow those of Descr.v, and give the warnings of a call there that ends normally (with a
    result [Ok]); what is warned of before an exception is not modelled.  The order of the warnings is that of the
    calls, except that the warnings of post-initialisation come last. *)
From Verif Require Import PyStr Dsv Json Dialects NatLang Numeric Datatype Column Meta Descr Schema.

(** the warnings.warn calls of these lines *)
Inductive lwarn :=
| LMeta (w : mwarn)       (* metadata.py:377, :409, :464 *)
| LValue (v : json)       (* utils.py:26 *)
| LEncoding (s : pystr)   (* dsv_dialects.py:40 *)
| LUri                    (* metadata.py:269 *)
| LNull                   (* :683 *)
| LLang                   (* :690 *)
| LTitles                 (* :754 *)
| LArray                  (* :335 *)
| LTitle                  (* :349 *)
| LForeignKey             (* :904 *)
| LColumn (w : warning)   (* :937, :944, :955 *)
| LSchema                 (* :968 *)
| LDialect                (* :990 *)
| LTransformations        (* :1002 *)
| LContext                (* :1074 *)
| LTable                  (* :1467 *)
| LPattern                (* :619 *)
| LDatatype.              (* warnings of datatypes.py *)

Section Warn.
Context {B : Type} (W : world B).
Notation mobj := (mobj B). Notation class := (class B).

(** utils.py:18-27: list items have no allow_none *)
Fixpoint item_warns (t : pytype) (cond : json -> bool) (v : json) : list lwarn :=
  match v with
  | JList l => flat_map (item_warns t cond) l
  | _ => if isinst t v && cond v then [] else [LValue v]
  end.
Definition conv_warns (t : pytype) (allow_none : bool) (cond : json -> bool) (v : json) : list lwarn :=
  match t, v with
  | TList, _ => if isinst t v && cond v then [] else [LValue v]
  | _, JNull => if allow_none then [] else [LValue v]
  | _, _ => item_warns t cond v
  end.
(** utils.converter(dict, None, v): utils.py:18-27 *)
Fixpoint dict_warns (v : json) : list lwarn :=
  match v with
  | JList l => flat_map dict_warns l
  | JObj _ => []
  | _ => [LValue v]
  end.

(** Description.partition_properties(d): the warnings of metadata.py:443-467 *)
Definition parts_warns (fields : list pystr) (type_name : pystr) (strict : bool) (d : json) : list lwarn :=
  match partition_properties (w_tag_ok W) fields type_name strict d with Ok r => map LMeta (snd r) | Err _ => [] end.
(** the warnings of the converters and validators of a class, by attribute; attributes that are not listed have none *)
Definition wtable := list (pystr * (json -> list lwarn)).
Definition attr_warns (fs : list (field B)) (T : wtable) (attrs : list (pystr * json)) : list lwarn :=
  flat_map (fun f => getdef (dget str_eqb T (fd_name f)) (fun _ => []) (getdef (dget str_eqb attrs (fd_name f)) (fd_default f))) fs.
(** cls( **partitioned ); [post]: the warnings of __attrs_post_init__ *)
Definition new_warns (C : class) (T : wtable) (post : mobj -> list lwarn) (p : parts) : list lwarn :=
  attr_warns (cl_fields C) T (p_attrs p) ++
  match mapM (fun f => fd_conv f (getdef (dget str_eqb (p_attrs p) (fd_name f)) (fd_default f))) (cl_fields C) with
  | Ok vals => post (MO None (sort_items (p_common p)) (sort_items (p_at p)) vals)
  | Err _ => []
  end.
(** metadata.py:469-471 fromvalue *)
Definition fromvalue_warns (C : class) (T : wtable) (post : mobj -> list lwarn) (d : json) : list lwarn :=
  parts_warns (all_names C) (cl_name C) true d ++
  match partition_properties (w_tag_ok W) (all_names C) (cl_name C) true d with
  | Ok (Some p, _) => new_warns C T post p
  | _ => []
  end.

(** metadata.py:261-269 *)
Definition uri_warns (v : json) : list lwarn := match v with JNull | JStr _ => [] | _ => [LUri] end.
(** metadata.py:680-685 *)
Definition null_warns (v : json) : list lwarn :=
  if forallb is_str (match v with JNull => [] | JList l => l | _ => [v] end) then [] else [LNull].
(** metadata.py:688-692 *)
Definition lang_warns (v : json) : list lwarn := match v with JStr s => if w_tag_ok W s then [] else [LLang] | _ => [] end.
(** utils.py:18-27 with allow_list=False, allow_none=False *)
Definition default_warns (v : json) : list lwarn := match v with JStr _ => [] | _ => [LValue v] end.

(** ** Datatype *)
(** Datatype.__attrs_post_init__: metadata.py:559-620.  The bounds are parsed, derived_description is computed, and
    the pattern of a decimal type is checked *)
Definition bound_warns (base : pystr) (fmt : json) (v : mval B) : list lwarn :=
  match v with MJ JNull => [] | MJ j => if w_noisy W base fmt j then [LDatatype] else [] | _ => [] end.
Definition datatype_post_warns (o : mobj) : list lwarn :=
  match o_vals o with
  | MJ (JStr b) :: MJ fmt :: _ :: _ :: _ :: bounds =>
      flat_map (bound_warns b fmt) bounds ++ (if w_odd_format W b fmt then [LDatatype] else []) ++
      match dget str_eqb DATATYPES b with
      | Some CDecimal => match derived W CDecimal b fmt with
                         | Ok (Some p) => if forallb (fun x => char_mem x pattern_chars) p then [] else [LPattern]
                         | _ => []
                         end
      | _ => []
      end
  | _ => []
  end.
(** metadata.py:520-525; :538-557 *)
Definition datatype_table : wtable := [(lit "base", conv_warns TStr true in_datatypes)].
Definition datatype_warns (v : json) : list lwarn :=
  if truthy v then
    match v with
    | JStr s => new_warns (Datatype_class W) datatype_table datatype_post_warns {| p_common := []; p_at := []; p_attrs := [(lit "base", JStr s)] |}
    | JObj kvs => fromvalue_warns (Datatype_class W) datatype_table datatype_post_warns
                    (JObj (if has (lit "base") kvs then kvs else kvs ++ [(lit "base", JStr (lit "string"))]))
    | _ => []
    end
  else [].

(** ** Inherited properties, Column: metadata.py:708-734, 758-781 *)
Definition description_table : wtable :=
  [ (lit "aboutUrl", uri_warns); (lit "datatype", datatype_warns); (lit "default", default_warns); (lit "lang", lang_warns);
    (lit "null", null_warns); (lit "ordered", conv_warns TBool true no_cond); (lit "propertyUrl", uri_warns);
    (lit "separator", conv_warns TStr true no_cond); (lit "textDirection", conv_warns TStr true (str_in directions));
    (lit "valueUrl", uri_warns) ].
(** metadata.py:328-352: up to the first key that is no language tag *)
Fixpoint titles_object_warns (kvs : list (pystr * json)) : list lwarn :=
  match kvs with
  | [] => []
  | (k, v) :: rest =>
      if w_tag_ok W k
      then flat_map (fun x => match x with JStr _ => [] | _ => [LTitle] end) (match v with JList l => l | _ => [v] end) ++ titles_object_warns rest
      else [LTitles]
  end.
(** metadata.py:748-753 *)
Definition titles_warns (v : json) : list lwarn :=
  match v with
  | JNull | JStr _ => []
  | JList l => if forallb is_str l then [] else [LArray]
  | JObj kvs => titles_object_warns kvs
  | _ => [LTitles]
  end.
Definition column_table : wtable :=
  description_table ++
  [ (lit "name", conv_warns TStr true no_cond); (lit "suppressOutput", conv_warns TBool false no_cond);
    (lit "titles", titles_warns); (lit "virtual", conv_warns TBool false no_cond) ].
Definition column_warns (d : json) : list lwarn := fromvalue_warns (Column_class W) column_table (fun _ => []) d.

(** ** Schema *)
(** metadata.py:919-923 *)
Definition columns_warns (v : json) : list lwarn :=
  conv_warns TList false no_cond v ++
  match v with JList l => flat_map dict_warns l ++ flat_map column_warns (dict_items l) | _ => [] end.
(** metadata.py:894-901; a list or a str as d: d['reference'] is a TypeError *)
Definition fkeys_warns (v : json) : list lwarn :=
  match v with
  | JNull => []
  | JList l => flat_map dict_warns l ++ flat_map (fun x => match x with JObj _ => [] | _ => [LForeignKey] end) (dict_items l)
  | JObj kvs => map (fun _ => LForeignKey) kvs
  | _ => []
  end.
(** metadata.py:934-950: the loop over the columns *)
Fixpoint cols_warns (virtual : bool) (seen : list pystr) (cols : list mobj) : list lwarn :=
  match cols with
  | [] => []
  | c :: rest =>
      (match col_name c with JStr (x :: n) => if bad_name (x :: n) then [LColumn InvalidColumnName] else [] | _ => [] end) ++
      if virtual || col_virtual c then cols_warns true seen rest
      else match col_header None c with
           | Ok h => (if str_mem h seen then [LColumn DuplicateColumnName] else []) ++ cols_warns false (h :: seen) rest
           | Err _ => []
           end
  end.
(** metadata.py:953-957; self.primaryKey is set to None, but the loop goes on *)
Fixpoint pk_warns (cols : list mobj) (refs : list json) : list lwarn :=
  match refs with
  | [] => []
  | r :: rest =>
      (match r, mapM (fun c => col_header (o_num c) c) cols with
       | JStr s, Ok hs => match dget str_eqb (dset_all str_eqb [] (combine hs cols)) s with
                          | Some c => match col_name c with JStr (_ :: _) => [] | _ => [LColumn PrimaryKeyWithoutName] end
                          | None => []
                          end
       | _, _ => []
       end) ++ pk_warns cols rest
  end.
(** Schema.__attrs_post_init__: metadata.py:933-957 *)
Definition schema_post_warns (o : mobj) : list lwarn :=
  match skipn 11 (o_vals o) with
  | [MObjs cols; _; MJ pk; _] => cols_warns false [] cols ++ pk_warns (number_from 0 cols) (match pk with JList l => l | _ => [] end)
  | _ => []
  end.
Definition schema_table : wtable := description_table ++ [ (lit "columns", columns_warns); (lit "foreignKeys", fkeys_warns) ].
(** metadata.py:959-971 Schema.fromvalue; isinstance(True, int) *)
Definition schema_warns (v : json) : list lwarn :=
  match (match v with JStr s => w_fetch_schema W s | _ => Some v end) with
  | None => []
  | Some w => (match w with JInt _ | JBool _ => [LSchema] | _ => [] end) ++
              fromvalue_warns (Schema_class W) schema_table schema_post_warns (match w with JObj _ => w | _ => JObj [] end)
  end.

(** ** Dialect *)
(** dsv_dialects.py:34-41 *)
Definition encoding_warns (v : json) : list lwarn :=
  conv_warns TStr false no_cond v ++
  match converter TStr (JStr (lit "utf-8")) false no_cond v with
  | JStr s => match w_codec W (encoding_map s) with CUnknown => [LEncoding s] | _ => [] end
  | _ => []
  end.
(** dsv_dialects.py:51-117; metadata.py:203-206 *)
Definition dialect_table : wtable :=
  [ (lit "encoding", encoding_warns); (lit "lineTerminators", conv_warns TList false no_cond);
    (lit "quoteChar", conv_warns TStr true no_cond); (lit "doubleQuote", conv_warns TBool false no_cond);
    (lit "skipRows", conv_warns TInt false nonneg); (lit "commentPrefix", conv_warns TStr true no_cond);
    (lit "header", conv_warns TBool false no_cond); (lit "headerRowCount", conv_warns TInt false nonneg);
    (lit "delimiter", conv_warns TStr false no_cond); (lit "skipColumns", conv_warns TInt false nonneg);
    (lit "skipBlankRows", conv_warns TBool false no_cond); (lit "skipInitialSpace", conv_warns TBool false no_cond);
    (lit "trim", conv_warns TStrOrBool false no_cond) ].
(** Dialect( **dialect_props(v)): metadata.py:989-999, 1037-1038 *)
Definition dialect_warns (v : json) : list lwarn :=
  (match v with JObj _ => parts_warns (Description_names W) (lit "Dialect") false v | _ => [LDialect] end) ++
  match dialect_props W v with
  | Ok kw => flat_map (fun a => getdef (dget str_eqb dialect_table (a_name a)) (fun _ => []) (getdef (dget str_eqb kw (a_name a)) (a_default a)))
               (meta_dialect_spec W)
  | Err _ => []
  end.
(** metadata.py:1035-1038 *)
Definition dialect_field_warns (v : json) : list lwarn := match v with JNull | JStr _ => [] | _ => dialect_warns v end.

(** ** TableLike, Table, TableGroup *)
(** metadata.py:1002-1006 valid_transformations; iterating over a str or dict yields strings *)
Definition transformations_warns (v : json) : list lwarn :=
  match v with
  | JList l => flat_map (parts_warns (Description_names W) (lit "Template") true) l
  | _ => [LTransformations]
  end.
(** metadata.py:1035-1053 *)
Definition tablelike_table : wtable :=
  description_table ++
  [ (lit "dialect", dialect_field_warns); (lit "tableDirection", conv_warns TStr false (str_in table_directions));
    (lit "tableSchema", schema_warns); (lit "transformations", transformations_warns) ].
(** metadata.py:1055-1077 *)
Definition context_warns (obj : json) : list lwarn :=
  match obj with
  | JObj kvs => match dget str_eqb kvs (lit "@language") with
                | Some (JStr s) => if w_tag_ok W s then [] else [LContext]
                | _ => []
                end
  | _ => []
  end.
Definition tablelike_post_warns (o : mobj) : list lwarn :=
  match skipn 11 (o_vals o) with
  | dialect :: _ =>
      (match dialect with
       | MJ (JStr s) => match w_fetch_dialect W s (o_at o) with Ok j => dialect_warns j | Err _ => [] end
       | _ => []
       end) ++
      match dget_at (o_at o) (lit "context") with Some (JList l) => flat_map context_warns l | _ => [] end
  | _ => []
  end.
Definition table_warns (d : json) : list lwarn := fromvalue_warns (Table_class W) tablelike_table tablelike_post_warns d.
(** metadata.py:1463-1470 *)
Definition tables_warns (v : json) : list lwarn :=
  match v with
  | JList l => flat_map (fun x => match x with JObj _ => table_warns x | _ => [LTable] end) l
  | JStr s => map (fun _ => LTable) s
  | JObj kvs => map (fun _ => LTable) kvs
  | _ => []
  end.
Definition group_table : wtable := tablelike_table ++ [ (lit "tables", tables_warns) ].
Definition group_warns (d : json) : list lwarn := fromvalue_warns (TableGroup_class W) group_table tablelike_post_warns d.
End Warn.
