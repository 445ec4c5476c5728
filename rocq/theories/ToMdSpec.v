(** What csvw2markdown prints (C70).  Vocabulary: MarkdownSpec.v (what a markdown document says, C59), LoadSpec.v (member, objects in metadata, C62), ToJsonSpec.v
    (common properties), CliSpec.v (keys, metadata from the web), LocateSpec.v (documents). *)
From Verif Require Import PyStr Json Dec Dialects DialectSpec Datatype Names Column Schema Table Zip Locate LocateSpec Files Descr Load LoadSpec Cli CliSpec Frictionless Markdown.
From Verif Require ToJsonSpec MarkdownSpec.

Section Spec.
Context {B : Type} (W : world B).
Variables (U : unicode) (str_of : json -> pystr) (space word : N -> bool).
Variables (w : web) (env : fenv) (stem : pystr -> pystr) (bound_str : B -> pystr) (present : pystr -> bool).

(** ** What the objects of the metadata say.  The records are those that C59 is about *)
(** a minimum or maximum: whether it counts as true - zero does not - and its text *)
Definition bound_read (d : object) (k : pystr) (o : option (bool * pystr)) : Prop :=
  match member d k with
  | None | Some JNull => o = None
  | Some j => exists b, w_parse W (type_name d) (format_of d) j = Ok b /\ o = Some (v_truthy (w_ops W) b, bound_str b)
  end.
Record datatype_read (j : json) (t : mdatatype) : Prop := {
  tr_base : md_base t = type_name (type_object j);
  tr_format : format_used (type_name (type_object j)) (format_of (type_object j)) (md_format t);
  tr_min : bound_read (type_object j) (lit "minimum") (md_min t);
  tr_max : bound_read (type_object j) (lit "maximum") (md_max t);
}.
Definition datatype_given (d : object) (o : option mdatatype) : Prop :=
  match o with
  | Some t => exists j, member d (lit "datatype") = Some j /\ truthy j = true /\ datatype_read j t
  | None => forall j, member d (lit "datatype") = Some j -> truthy j = false
  end.
(** the properties of the column itself: nothing is inherited *)
Record column_read (d : object) (c : mcol) : Prop := {
  cr_name : match mc_name c with Some n => member d (lit "name") = Some (JStr n) | None => forall n, member d (lit "name") <> Some (JStr n) end;
  cr_url : match member d (lit "propertyUrl") with Some (JStr u) => mc_url c = Some u | _ => mc_url c = None end;
  cr_sep : match member d (lit "separator") with Some (JStr s) => mc_sep c = Some s | _ => mc_sep c = None end;
  cr_props : ToJsonSpec.common_says W d (mc_props c);
  cr_datatype : datatype_given d (mc_datatype c);
}.
(** in metadata, commentPrefix has another default *)
Definition metadata_default (k : pystr) : json := if str_eqb k (lit "commentPrefix") then JNull else dialect_default k.
(** the dialect as JSON: the settings that are not the default, they say the same as the dialect described *)
Definition dialect_read (t : object) (o : option jdict) : Prop :=
  match o with
  | None => member t (lit "dialect") = None \/ member t (lit "dialect") = Some JNull
  | Some dd => (exists x, dialect_described W t (Some x) /\ dialect_says (w_codec W) dd x) /\
               NoDup (map fst dd) /\ forall k v, In (k, v) dd -> In k dialect_names /\ v <> metadata_default k
  end.
Record table_read (url : pystr) (t : object) (x : mtable) : Prop := {
  br_url : member t (lit "url") = Some (JStr (mt_url x));
  br_props : ToJsonSpec.common_says W t (mt_props x);
  br_dialect : dialect_read t (mt_dialect x);
  br_datatype : datatype_given t (mt_datatype x);
  (* the file is there, next to local metadata *)
  br_exists : mt_exists x = true <-> ~ remote url /\ present (joinpath (parent (norm url)) (mt_url x)) = true;
  br_schema : exists s ds pk fks, schema_object W (member t (lit "tableSchema")) s /\ columns_of s ds /\
    primary_key_says s ds pk /\ mt_pk x = match pk with Some l => l | None => [] end /\
    foreign_keys_say s fks /\ Forall2 (fun k m => mf_cols m = fk_cols k /\ mf_refcols m = fk_refcols k /\ mf_resource m = fk_resource k) fks (mt_fks x) /\
    Forall2 column_read ds (mt_cols x);
}.
Record group_read (url : pystr) (md : object) (g : mgroup) : Prop := {
  gr_props : ToJsonSpec.common_says W md (mg_props g);
  gr_fname : (remote url -> mg_fname g = None) /\ (~ remote url -> mg_fname g = Some (path_name (norm url)));
  gr_dialect : dialect_read md (mg_dialect g);
  gr_tables : exists ts, tables_of md ts /\ Forall2 (table_read url) ts (mg_tables g);
}.
(** the text shows what the metadata say, and they can be shown (C59: say, there is a dialect for each table); md': the metadata with links resolved *)
Definition shows_metadata (url text : pystr) : Prop :=
  exists t md md' g, document w url t /\ wb_json w t = Some (JObj md) /\ metadata_as_used env stem url md md' /\ group_read url md' g /\
    MarkdownSpec.renderable U g /\
    (MarkdownSpec.tidy_group str_of space word g -> MarkdownSpec.document_says U str_of space word g true (MarkdownSpec.read_document text)).
End Spec.
