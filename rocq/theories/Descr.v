(** Description objects and their serialisation (metadata.py:434-800, 855-986, 989-1115, 1180-1217, 1463-1493;
    utils.py:37-58): building a Datatype, Column, Schema, Dialect, Table or TableGroup from JSON ([fromvalue]) and
    turning it into JSON again ([asdict]).

    Simplifications, for the whole file:
    - [common_props] and [at_props] are kept sorted by key; == of Python dicts ignores the order;
    - warnings are not recorded (see Meta.v and Schema.v for those of the property theorems C48, C29);
    - validators run directly after the converter of the same attribute, not after all converters: this can only
      change which of several exceptions is raised;
    - [asdict] stands for asdict() followed by json.dump: a non-JSON value in it (the INVALID marker of a
      malformed URI template) is a TypeError;
    - objects changed in place by their argument's owner, and private attributes other than a column's
      _number, are not modelled. *)
From Verif Require Import PyStr Dsv Json Dialects NatLang Numeric Datatype Column Meta.

(** ForeignKey with its Reference: metadata.py:855-878 *)
Record fkobj := { k_cols : json; k_resource : option pystr; k_schemaReference : option pystr; k_refcols : json }.

(** External code.  [B] is the type of the values of bounds (minimum etc.) *)
Record world (B : Type) := {
  w_tag_ok : pystr -> bool;                        (* language_tags.tags.check *)
  w_codec : pystr -> codec_result;                 (* 'x'.encode(name) *)
  w_fetch_schema : pystr -> option json;           (* requests.get(v).json(); None: it raised *)
  w_fetch_dialect : pystr -> list (pystr * json) -> res json; (* get_json(Link(dialect).resolve(base)), given at_props *)
  w_urljoin : json -> pystr -> res json;           (* urllib.parse.urljoin *)
  w_py_int : json -> res Z;                        (* int(v) of a float or str *)
  w_parse : pystr -> json -> json -> res B;        (* Datatype.parse, given base and format *)
  w_formatted : pystr -> json -> B -> res pystr;   (* Datatype.formatted *)
  w_formatted_none : pystr -> json -> res pystr;   (* Datatype.formatted(None) *)
  w_ops : vops B;                                  (* truth value and order of bounds *)
  w_derived_ok : pystr -> json -> res unit;        (* derived_description of other than decimal types *)
  w_noisy : pystr -> json -> json -> bool;         (* Datatype.parse issues a warning *)
  w_odd_format : pystr -> json -> bool;            (* derived_description issues a warning *)
}.
Arguments w_tag_ok {B}. Arguments w_codec {B}. Arguments w_fetch_schema {B}. Arguments w_fetch_dialect {B}.
Arguments w_urljoin {B}. Arguments w_py_int {B}. Arguments w_parse {B}. Arguments w_formatted {B}.
Arguments w_formatted_none {B}. Arguments w_ops {B}. Arguments w_derived_ok {B}. Arguments w_noisy {B}. Arguments w_odd_format {B}.

Section Descr.
Context {B : Type} (W : world B).

(** Attribute values: JSON, the INVALID marker, URITemplate, Link, NaturalLanguage, a parsed bound, Dialect,
    a list of ForeignKeys, a description object, a list of description objects.
    A description object: _number (of a Column in a Schema), common_props, at_props, and the public attributes
    in order of their definition. *)
Inductive mval :=
| MJ (j : json) | MInvalid | MUri (s : pystr) | MLink (s : pystr) | MTitles (nl : natlang) | MBound (b : B)
| MDialect (a : attrs) | MFks (l : list fkobj) | MObj (o : mobj) | MObjs (l : list mobj)
with mobj := MO (num : option nat) (common at_ : list (pystr * json)) (vals : list mval).

Definition o_num (o : mobj) : option nat := match o with MO n _ _ _ => n end.
Definition o_common (o : mobj) := match o with MO _ c _ _ => c end.
Definition o_at (o : mobj) := match o with MO _ _ a _ => a end.
Definition o_vals (o : mobj) := match o with MO _ _ _ v => v end.

(** ** Classes of descriptions *)
(** an attribute: name, default, converter and validator, serialisation (asdict of its value) *)
Record field := { fd_name : pystr; fd_default : json; fd_conv : json -> res mval; fd_ser : bool -> mval -> res json }.
(** cls.__name__, public attributes, names of private attributes, __attrs_post_init__ *)
Record class := { cl_name : pystr; cl_fields : list field; cl_private : list pystr; cl_post : mobj -> res mobj }.
Definition field_names (C : class) : list pystr := map fd_name (cl_fields C).
(** attr.fields_dict(cls) *)
Definition all_names (C : class) : list pystr := lit "common_props" :: lit "at_props" :: cl_private C ++ field_names C.

(** sorted(d.items()): the keys are distinct *)
Fixpoint str_leb (a b : pystr) : bool :=
  match a, b with
  | [], _ => true
  | _ :: _, [] => false
  | x :: a', y :: b' => (x <? y) || ((x =? y) && str_leb a' b')
  end.
Fixpoint insert_item (kv : pystr * json) (l : list (pystr * json)) : list (pystr * json) :=
  match l with
  | [] => [kv]
  | x :: l' => if str_leb (fst kv) (fst x) then kv :: x :: l' else x :: insert_item kv l'
  end.
Definition sort_items (l : list (pystr * json)) : list (pystr * json) := fold_right insert_item [] l.

(** cls( **partitioned ): attrs' generated __init__ and __attrs_post_init__.  Private attributes have another name
    as arguments, so that they are unexpected here. *)
Definition new_object (C : class) (p : parts) : res mobj :=
  if negb (forallb (fun kv => str_mem (fst kv) (field_names C)) (p_attrs p)) then Err TypeError else
  vals <- mapM (fun f => fd_conv f (getdef (dget str_eqb (p_attrs p) (fd_name f)) (fd_default f))) (cl_fields C) ;;
  cl_post C (MO None (sort_items (p_common p)) (sort_items (p_at p)) vals).

(** metadata.py:469-471 fromvalue; cls( **None ) is a TypeError *)
Definition fromvalue (C : class) (d : json) : res mobj :=
  r <- partition_properties (w_tag_ok W) (all_names C) (cl_name C) true d ;;
  match fst r with None => Err TypeError | Some p => new_object C p end.

(** value == default: utils.py:53.  Objects are never equal to a default other than a list *)
Definition equals_default (d : json) (v : mval) : bool :=
  match v with
  | MJ j => py_eq j d
  | MFks [] | MObjs [] => py_eq (JList []) d
  | _ => false
  end.
(** v in ([], {}) *)
Definition is_empty (j : json) : bool := match j with JList [] | JObj [] => true | _ => false end.

(** metadata.py:473-490 _iter_dict_items, utils.py:47-58 attr_asdict *)
Definition asdict_attrs (omit : bool) (fs : list field) (vals : list mval) : res (list (pystr * json)) :=
  mapM (fun fv => j <- fd_ser (fst fv) omit (snd fv) ;; Ok (fd_name (fst fv), j))
       (filter (fun fv => negb (omit && equals_default (fd_default (fst fv)) (snd fv))) (combine fs vals)).
(** metadata.py:492-499 asdict *)
Definition asdict (C : class) (omit : bool) (o : mobj) : res (list (pystr * json)) :=
  attrs <- asdict_attrs omit (cl_fields C) (o_vals o) ;;
  Ok (filter (fun kv => str_eqb (fst kv) (lit "null") || negb (is_empty (snd kv)))
        (map (fun kv => (lit "@" ++ fst kv, snd kv)) (sort_items (o_at o)) ++ sort_items (o_common o) ++ attrs)).

(** ** Attributes *)
Definition ser_json (_ : bool) (v : mval) : res json := match v with MJ j => Ok j | _ => Err TypeError end.
Definition plain (n : pystr) (d : json) (c : json -> json) : field :=
  {| fd_name := n; fd_default := d; fd_conv := fun j => Ok (MJ (c j)); fd_ser := ser_json |}.

(** metadata.py:254-277 uri_template_property; 245-251 URITemplate *)
Definition uri_field (n : pystr) : field :=
  {| fd_name := n; fd_default := JNull;
     fd_conv := fun j => Ok (match j with JNull => MJ JNull | JStr s => MUri s | _ => MInvalid end);
     fd_ser := fun _ v => match v with MUri s => Ok (JStr s) | MJ j => Ok j | _ => Err TypeError end |}.
(** metadata.py:313-317 link_property; 280-294 Link *)
Definition link_field (n : pystr) : field :=
  {| fd_name := n; fd_default := JNull;
     fd_conv := fun j => match j with JNull => Ok (MJ JNull) | JStr s => Ok (MLink s) | _ => Err ValueError end;
     fd_ser := fun _ v => match v with MLink s => Ok (JStr s) | MJ j => Ok j | _ => Err TypeError end |}.

(** ** Datatype: metadata.py:509-650 *)
(** metadata.py:502-506 optional_int *)
Definition int_field (n : pystr) : field :=
  {| fd_name := n; fd_default := JNull;
     fd_conv := fun j => match j with
                         | JNull => Ok (MJ JNull)
                         | JInt z => Ok (MJ (JInt z))
                         | JBool b => Ok (MJ (JInt (if b then 1 else 0)))
                         | JStr _ | JFloat _ => z <- (w_py_int W) j ;; Ok (MJ (JInt z))
                         | _ => Err TypeError
                         end;
     fd_ser := ser_json |}.
Definition in_datatypes (v : json) : bool :=
  match v with JStr s => match dget str_eqb DATATYPES s with Some _ => true | None => false end | _ => false end.
(** metadata.py:520-525 *)
Definition base_field : field :=
  {| fd_name := lit "base"; fd_default := JNull;
     fd_conv := fun j => let w := converter TStr (JStr (lit "string")) true in_datatypes j in
                         match w with JNull | JStr _ => Ok (MJ w) | _ => Err ValueError end;
     fd_ser := ser_json |}.
Definition bound_names : list pystr :=
  [lit "minimum"; lit "maximum"; lit "minInclusive"; lit "maxInclusive"; lit "minExclusive"; lit "maxExclusive"].
(** DescriptionBase.asdict leaves a bound's value alone; it is formatted in [dt_asdict] *)
Definition raw_field (n : pystr) : field := plain n JNull (fun j => j).
(** metadata.py:520-536 in order of definition *)
Definition datatype_fields : list field :=
  [base_field; raw_field (lit "format"); int_field (lit "length"); int_field (lit "minLength"); int_field (lit "maxLength")]
  ++ map raw_field bound_names.

Definition opt_z (v : mval) : option Z := match v with MJ (JInt z) => Some z | _ => None end.
Definition opt_raw (v : mval) : option json := match v with MJ JNull => None | MJ j => Some j | _ => None end.
Definition of_bound (o : option B) : mval := match o with Some b => MBound b | None => MJ JNull end.
(** at_props['id'] == NAMESPACES['xsd'] + dt for some dt: metadata.py:611-613 *)
Definition xsd : pystr := lit "http://www.w3.org/2001/XMLSchema#".
Definition builtin_id (at_ : list (pystr * json)) : bool :=
  match dget str_eqb at_ (lit "id") with
  | Some (JStr s) => existsb (fun d => str_eqb s (xsd ++ fst d)) DATATYPES
  | _ => false
  end.
(** the 'pattern' of derived_description (datatypes.py:524-528 for decimal types); a pattern that is no string is not modelled *)
Definition derived (c : dclass) (base : pystr) (fmt : json) : res (option pystr) :=
  match c with
  | CDecimal =>
      if truthy fmt then
        match fmt with
        | JObj kvs => match dget str_eqb kvs (lit "pattern") with
                      | None => Ok None
                      | Some (JStr p) => Ok (Some p)
                      | Some _ => Err OtherError
                      end
        | JStr p => Ok (Some p)
        | _ => Err OtherError
        end
      else Ok None
  | _ => _ <- (w_derived_ok W) base fmt ;; Ok None
  end.

(** Datatype.__attrs_post_init__: metadata.py:559-620 (see Datatype.post_init).  DATATYPES[None] is a KeyError *)
Definition datatype_post (o : mobj) : res mobj :=
  match o_vals o with
  | [MJ base; MJ fmt; len; minl; maxl; mn; mx; mni; mxi; mne; mxe] =>
      match base with
      | JStr b =>
          match dget str_eqb DATATYPES b with
          | None => Err KeyError
          | Some c =>
              r <- post_init (w_ops W) ((w_parse W) b fmt) c (derived c b fmt) (builtin_id (o_at o))
                     {| fc_length := opt_z len; fc_minLength := opt_z minl; fc_maxLength := opt_z maxl;
                        fc_minimum := opt_raw mn; fc_maximum := opt_raw mx;
                        fc_minInclusive := opt_raw mni; fc_maxInclusive := opt_raw mxi;
                        fc_minExclusive := opt_raw mne; fc_maxExclusive := opt_raw mxe |} ;;
              let (F, keep) := r in
              Ok (MO (o_num o) (o_common o) (o_at o)
                    [MJ base; MJ (if (keep : bool) then fmt else JNull); len; minl; maxl;
                     of_bound (fc_minimum F); of_bound (fc_maximum F); of_bound (fc_minInclusive F);
                     of_bound (fc_maxInclusive F); of_bound (fc_minExclusive F); of_bound (fc_maxExclusive F)])
          end
      | _ => Err KeyError
      end
  | _ => Err OtherError (* unreachable: the attributes are these eleven *)
  end.
Definition Datatype_class : class :=
  {| cl_name := lit "Datatype"; cl_fields := datatype_fields; cl_private := []; cl_post := datatype_post |}.

(** metadata.py:538-557 Datatype.fromvalue *)
Definition datatype_fromvalue (v : json) : res mobj :=
  match v with
  | JStr s => new_object Datatype_class {| p_common := []; p_at := []; p_attrs := [(lit "base", JStr s)] |}
  | JObj kvs => fromvalue Datatype_class
                  (JObj (if has (lit "base") kvs then kvs else kvs ++ [(lit "base", JStr (lit "string"))]))
  | _ => Err ValueError
  end.

(** metadata.py:622-631 Datatype.asdict: bounds are formatted - also a bound that is None and not omitted *)
Definition ser_bound (base : pystr) (fmt : json) (v : mval) : res json :=
  match v with
  | MBound b => s <- (w_formatted W) base fmt b ;; Ok (JStr s)
  | MJ JNull => s <- (w_formatted_none W) base fmt ;; Ok (JStr s)
  | _ => Err TypeError
  end.
Definition dt_base (o : mobj) : pystr := match o_vals o with MJ (JStr b) :: _ => b | _ => [] end.
Definition dt_format (o : mobj) : json := match o_vals o with _ :: MJ f :: _ => f | _ => JNull end.
Definition bound_field (o : mobj) (n : pystr) : field :=
  {| fd_name := n; fd_default := JNull; fd_conv := fun j => Ok (MJ j);
     fd_ser := fun _ v => ser_bound (dt_base o) (dt_format o) v |}.
Definition datatype_asdict (omit : bool) (o : mobj) : res json :=
  d <- asdict {| cl_name := lit "Datatype";
                 cl_fields := firstn 5 datatype_fields ++ map (bound_field o) bound_names;
                 cl_private := []; cl_post := datatype_post |} omit o ;;
  Ok match d with
     | [(k, v)] => if str_eqb k (lit "base") then v else JObj d
     | _ => JObj d
     end.

(** ** Inherited properties: metadata.py:680-730 *)
(** metadata.py:701-703; Datatype.asdict(omit_defaults=True): utils.py:55-56 *)
Definition datatype_field : field :=
  {| fd_name := lit "datatype"; fd_default := JNull;
     fd_conv := fun j => if truthy j then o <- datatype_fromvalue j ;; Ok (MObj o) else Ok (MJ j);
     fd_ser := fun _ v => match v with MObj o => datatype_asdict true o | MJ j => Ok j | _ => Err TypeError end |}.
(** metadata.py:680-685 converter_null *)
Definition conv_null (v : json) : json :=
  let l := match v with JNull => [] | JList l => l | _ => [v] end in
  if forallb is_str l then JList l else JList [JStr []].
(** metadata.py:688-692 converter_lang; tags.check of a value that is no str is an AttributeError *)
Definition lang_field : field :=
  {| fd_name := lit "lang"; fd_default := JStr (lit "und");
     fd_conv := fun j => match j with
                         | JStr s => Ok (MJ (JStr (if (w_tag_ok W) s then s else lit "und")))
                         | _ => Err AttributeError
                         end;
     fd_ser := ser_json |}.
Definition directions : list pystr := [lit "ltr"; lit "rtl"; lit "auto"; lit "inherit"].
Definition str_in (l : list pystr) (v : json) : bool := match v with JStr s => str_mem s l | _ => false end.
(** metadata.py:708-730 in order of definition, without _parent *)
Definition description_fields : list field :=
  [ uri_field (lit "aboutUrl"); datatype_field;
    plain (lit "default") (JStr []) (fun j => match j with JStr s => JStr s | _ => JStr [] end);
    lang_field;
    plain (lit "null") (JList [JStr []]) conv_null;
    plain (lit "ordered") JNull (converter TBool (JBool false) true no_cond);
    uri_field (lit "propertyUrl");
    plain (lit "required") JNull (fun j => j);
    plain (lit "separator") JNull (converter TStr JNull true no_cond);
    plain (lit "textDirection") JNull (converter TStr JNull true (str_in directions));
    uri_field (lit "valueUrl") ].

(** ** Column: metadata.py:748-781 *)
(** metadata.py:748-753 converter_titles *)
Definition titles_field : field :=
  {| fd_name := lit "titles"; fd_default := JNull;
     fd_conv := fun j => match j with
                         | JNull => Ok (MJ JNull)
                         | _ => match nl_init (w_tag_ok W) j with
                                | Ok nl => Ok (MTitles nl)
                                | Err ValueError => Ok (MJ JNull)
                                | Err e => Err e
                                end
                         end;
     fd_ser := fun _ v => match v with MTitles nl => Ok (nl_asdict nl) | MJ j => Ok j | _ => Err TypeError end |}.
Definition column_fields : list field :=
  description_fields ++
  [ plain (lit "name") JNull (converter TStr JNull true no_cond);
    plain (lit "suppressOutput") (JBool false) (converter TBool (JBool false) false no_cond);
    titles_field;
    plain (lit "virtual") (JBool false) (converter TBool (JBool false) false no_cond) ].
Definition Column_class : class :=
  {| cl_name := lit "Column"; cl_fields := column_fields; cl_private := [lit "_parent"; lit "_number"]; cl_post := Ok |}.

(** ** Schema: metadata.py:855-971 *)
(** utils.converter(dict, None) on a list: utils.py:18-27.  Items that are lists are kept, converted likewise *)
Fixpoint conv_dict (v : json) : option json :=
  match v with
  | JList l =>
      Some (JList ((fix go l := match l with
                                | [] => []
                                | x :: l' => match conv_dict x with Some y => y :: go l' | None => go l' end
                                end) l))
  | JObj _ => Some v
  | _ => None
  end.
Definition dict_items (l : list json) : list json :=
  flat_map (fun x => match conv_dict x with Some y => [y] | None => [] end) l.
(** metadata.py:919-923 *)
Definition columns_field : field :=
  {| fd_name := lit "columns"; fd_default := JList [];
     fd_conv := fun j => cols <- mapM (fromvalue Column_class) (dict_items (match j with JList l => l | _ => [] end)) ;;
                         Ok (MObjs cols);
     fd_ser := fun omit v => match v with
                             | MObjs l => js <- mapM (fun o => d <- asdict Column_class omit o ;; Ok (JObj d)) l ;; Ok (JList js)
                             | _ => Err TypeError
                             end |}.

(** metadata.py:848-852 column_reference *)
Definition conv_colref (v : json) : json := match v with JList _ | JNull => v | _ => JList [v] end.
Definition link_of (v : option json) : res (option pystr) :=
  match v with None | Some JNull => Ok None | Some (JStr s) => Ok (Some s) | Some _ => Err ValueError end.
(** Reference( **v ): metadata.py:855-865.  TypeErrors (no dict, unknown keys) are ValueErrors in :880-883 *)
Definition reference_of (v : json) : res (option pystr * option pystr * json) :=
  match v with
  | JObj r =>
      if negb (forallb (fun kv => str_mem (fst kv) [lit "resource"; lit "schemaReference"; lit "columnReference"]) r) then Err ValueError else
      res_ <- link_of (dget str_eqb r (lit "resource")) ;;
      sref <- link_of (dget str_eqb r (lit "schemaReference")) ;;
      match res_, sref with
      | Some _, Some _ => Err ValueError
      | _, _ => Ok (res_, sref, conv_colref (getdef (dget str_eqb r (lit "columnReference")) JNull))
      end
  | _ => Err ValueError
  end.
(** metadata.py:874-886 ForeignKey.fromdict on a dict *)
Definition fkey_of (d : list (pystr * json)) : res fkobj :=
  match dget str_eqb d (lit "reference") with
  | None => Err KeyError
  | Some r =>
      x <- reference_of r ;;
      if negb (forallb (fun kv => str_mem (fst kv) [lit "columnReference"; lit "reference"]) d) then Err ValueError else
      Ok {| k_cols := conv_colref (getdef (dget str_eqb d (lit "columnReference")) JNull);
            k_resource := fst (fst x); k_schemaReference := snd (fst x); k_refcols := snd x |}
  end.
(** metadata.py:894-901 converter_foreignKeys: list items are dicts or lists (d['reference'] on a list is a
    TypeError and the item is ignored); a dict is iterated over, yielding ignored strings; iterating over None
    is a TypeError *)
Definition conv_fkeys (v : json) : res (list fkobj) :=
  match v with
  | JNull => Ok []
  | JList l => mapM fkey_of (flat_map (fun x => match x with JObj d => [d] | _ => [] end) (dict_items l))
  | JObj _ => Ok []
  | _ => Err TypeError
  end.
(** metadata.py:888-891 ForeignKey.asdict *)
Definition opt_item (omit : bool) (k : pystr) (v : json) : list (pystr * json) :=
  match v with JNull => if omit then [] else [(k, JNull)] | _ => [(k, v)] end.
Definition j_link (o : option pystr) : json := match o with Some s => JStr s | None => JNull end.
Definition fkey_asdict (omit : bool) (f : fkobj) : json :=
  JObj (opt_item omit (lit "columnReference") (k_cols f) ++
        [(lit "reference", JObj (opt_item omit (lit "resource") (j_link (k_resource f)) ++
                                 opt_item omit (lit "schemaReference") (j_link (k_schemaReference f)) ++
                                 opt_item omit (lit "columnReference") (k_refcols f)))]).
Definition fkeys_field : field :=
  {| fd_name := lit "foreignKeys"; fd_default := JList [];
     fd_conv := fun j => l <- conv_fkeys j ;; Ok (MFks l);
     fd_ser := fun omit v => match v with MFks l => Ok (JList (map (fkey_asdict omit) l)) | _ => Err TypeError end |}.
Definition schema_fields : list field :=
  description_fields ++
  [ columns_field; fkeys_field; plain (lit "primaryKey") JNull conv_colref;
    plain (lit "rowTitles") (JList []) (fun j => match j with JList _ => j | _ => JList [j] end) ].

(** the attributes of a Column that Schema looks at *)
Definition col_attr (o : mobj) (n : nat) : mval := nth n (o_vals o) (MJ JNull).
Definition col_name (o : mobj) : json := match col_attr o 11 with MJ j => j | _ => JNull end.
Definition col_virtual (o : mobj) : bool := match col_attr o 14 with MJ j => truthy j | _ => false end.
Definition col_titles (o : mobj) : option natlang := match col_attr o 13 with MTitles nl => Some nl | _ => None end.
(** metadata.py:783-786, 796-798 header, given _number *)
Definition col_header (num : option nat) (o : mobj) : res pystr :=
  match col_name o with
  | JStr (x :: n) => Ok (x :: n)
  | _ =>
      t <- match col_titles o with None | Some [] => Ok None | Some nl => nl_getfirst nl None end ;;
      match t with Some (x :: s) => Ok (x :: s) | _ => Ok (col_n num) end
  end.
(** metadata.py:933-952: the loop over the columns; a name that is a non-empty list has no startswith *)
Fixpoint cols_ok (virtual : bool) (names : list pystr) (cols : list mobj) : res unit :=
  match cols with
  | [] => Ok tt
  | c :: rest =>
      if match col_name c with JList (_ :: _) => true | _ => false end then Err AttributeError else
      if negb (col_virtual c) && virtual then Err ValueError else
      if virtual || col_virtual c then cols_ok true names rest
      else
        _ <- col_header None c ;;
        match col_name c with
        | JStr (x :: n) => if str_mem (x :: n) names then Err ValueError else cols_ok false ((x :: n) :: names) rest
        | _ => cols_ok false names rest
        end
  end.
(** metadata.py:951-952: _number (and _parent) *)
Fixpoint number_from (i : nat) (cols : list mobj) : list mobj :=
  match cols with
  | [] => []
  | MO _ c a v :: rest => MO (Some (S i)) c a v :: number_from (S i) rest
  end.
(** metadata.py:953-957; dict.get of a list or dict is a TypeError *)
Fixpoint pk_ok (cols : list mobj) (refs : list json) (acc : json) : res json :=
  match refs with
  | [] => Ok acc
  | r :: rest =>
      hs <- mapM (fun c => col_header (o_num c) c) cols ;;
      match r with
      | JList _ | JObj _ => Err TypeError
      | JStr s => match dget str_eqb (dset_all str_eqb [] (combine hs cols)) s with
                  | Some c => match col_name c with
                              | JStr (_ :: _) => pk_ok cols rest acc
                              | _ => pk_ok cols rest JNull
                              end
                  | None => pk_ok cols rest acc
                  end
      | _ => pk_ok cols rest acc
      end
  end.
(** Schema.__attrs_post_init__: metadata.py:933-957 *)
Definition schema_post (o : mobj) : res mobj :=
  match skipn 11 (o_vals o) with
  | [MObjs cols; fks; MJ pk; titles] =>
      _ <- cols_ok false [] cols ;;
      pk' <- pk_ok (number_from 0 cols) (match pk with JList l => l | _ => [] end) pk ;;
      Ok (MO (o_num o) (o_common o) (o_at o)
             (firstn 11 (o_vals o) ++ [MObjs (number_from 0 cols); fks; MJ pk'; titles]))
  | _ => Err OtherError (* unreachable *)
  end.
Definition Schema_class : class :=
  {| cl_name := lit "Schema"; cl_fields := schema_fields; cl_private := [lit "_parent"]; cl_post := schema_post |}.
(** metadata.py:959-970 Schema.fromvalue; a str whose retrieval fails stays a str *)
Definition schema_fromvalue (v : json) : res mval :=
  match (match v with JStr s => match (w_fetch_schema W) s with Some j => Some j | None => None end | _ => Some v end) with
  | None => Ok (MJ v)
  | Some w => o <- fromvalue Schema_class (match w with JObj _ => w | _ => JObj [] end) ;; Ok (MObj o)
  end.

(** ** Dialect in metadata: metadata.py:186-211, 989-999 *)
(** commentPrefix defaults to None *)
Definition meta_dialect_spec : list aspec :=
  filter (fun a => negb (str_eqb (a_name a) (lit "commentPrefix"))) (dialect_spec (w_codec W)) ++
  [mk (lit "commentPrefix") JNull (converter TStr JNull true no_cond)
      (fun v => match v with JNull => Ok tt | _ => valid_type TStr v end)].
Definition Description_names : list pystr :=
  lit "common_props" :: lit "at_props" :: lit "_parent" :: map fd_name description_fields.
(** metadata.py:989-999 dialect_props *)
Definition dialect_props (v : json) : res attrs :=
  match v with
  | JObj _ =>
      r <- partition_properties (w_tag_ok W) Description_names (lit "Dialect") false v ;;
      match fst r with
      | None => Err TypeError
      | Some p => Ok (if truthy (getdef (dget str_eqb (p_attrs p) (lit "headerRowCount")) JNull)
                      then dset str_eqb (p_attrs p) (lit "header") (JBool true) else p_attrs p)
      end
  | _ => Ok []
  end.
Definition new_dialect (v : json) : res attrs := kw <- dialect_props v ;; attrs_init meta_dialect_spec kw.
(** metadata.py:1035-1038; asdict: utils.py:55-56, dsv_dialects.py:144-145 *)
Definition dialect_field : field :=
  {| fd_name := lit "dialect"; fd_default := JNull;
     fd_conv := fun j => match j with
                         | JNull | JStr _ => Ok (MJ j)
                         | _ => a <- new_dialect j ;; Ok (MDialect a)
                         end;
     fd_ser := fun _ v => match v with
                          | MDialect a => Ok (JObj (attrs_asdict meta_dialect_spec true a))
                          | MJ j => Ok j
                          | _ => Err TypeError
                          end |}.

(** ** TableLike, Table, TableGroup *)
(** metadata.py:1002-1006 valid_transformations *)
Definition check_transformations (v : json) : res unit :=
  match v with
  | JList l => _ <- mapM (fun t => partition_properties (w_tag_ok W) Description_names (lit "Template") true t) l ;; Ok tt
  | JStr _ | JObj _ => Ok tt
  | _ => Err TypeError
  end.
Definition schema_field : field :=
  {| fd_name := lit "tableSchema"; fd_default := JNull; fd_conv := schema_fromvalue;
     fd_ser := fun _ v => match v with
                          | MObj o => d <- asdict Schema_class true o ;; Ok (JObj d)
                          | MJ j => Ok j
                          | _ => Err TypeError
                          end |}.
Definition table_directions : list pystr := [lit "rtl"; lit "ltr"; lit "auto"].
(** metadata.py:1035-1053 *)
Definition tablelike_fields : list field :=
  description_fields ++
  [ dialect_field;
    plain (lit "notes") (JList []) (fun j => j);
    {| fd_name := lit "tableDirection"; fd_default := JStr (lit "auto");
       fd_conv := fun j => match converter TStr (JStr (lit "auto")) false (str_in table_directions) j with
                           | JStr s => Ok (MJ (JStr s))
                           | _ => Err ValueError
                           end;
       fd_ser := ser_json |};
    schema_field;
    {| fd_name := lit "transformations"; fd_default := JList [];
       fd_conv := fun j => _ <- check_transformations j ;; Ok (MJ j); fd_ser := ser_json |};
    link_field (lit "url") ].

Definition dget_at (at_ : list (pystr * json)) (k : pystr) : option json := dget str_eqb at_ k.
(** TableLike.base for an object without _parent and _fname: metadata.py:1119-1134 *)
Definition ctx_base (acc : json) (obj : json) : json :=
  match obj with JObj kvs => match dget str_eqb kvs (lit "@base") with Some b => b | None => acc end | _ => acc end.
Definition base_of (at_ : list (pystr * json)) : res json :=
  cb <- match dget_at at_ (lit "context") with
        | None | Some (JStr _) | Some (JObj _) => Ok JNull
        | Some (JList l) => Ok (fold_left ctx_base l JNull)
        | Some _ => Err TypeError
        end ;;
  match dget_at at_ (lit "base") with
  | None => Ok JNull
  | Some b => if truthy cb then match cb with JStr s => (w_urljoin W) b s | _ => Err ValueError end else Ok b
  end.
(** metadata.py:1063-1077: one element of a list-valued @context *)
Definition check_context (obj : json) : res json :=
  match obj with
  | JObj kvs =>
      if negb (forallb (fun kv => str_mem (fst kv) [lit "@base"; lit "@language"]) kvs) then Err ValueError
      else match dget str_eqb kvs (lit "@language") with
           | None => Ok obj
           | Some (JStr s) => if (w_tag_ok W) s then Ok obj
                              else Ok (JObj (filter (fun kv => negb (str_eqb (fst kv) (lit "@language"))) kvs))
           | Some _ => Err AttributeError
           end
  | JStr s => if str_eqb s (lit "http://www.w3.org/ns/csvw") then Ok obj else Err ValueError
  | _ => Ok obj
  end.
(** TableLike.__attrs_post_init__: metadata.py:1055-1077 *)
Definition tablelike_post (o : mobj) : res mobj :=
  match skipn 11 (o_vals o) with
  | dialect :: rest =>
      dialect' <- match dialect with
                  | MJ (JStr s) => j <- (w_fetch_dialect W) s (o_at o) ;; a <- new_dialect j ;; Ok (MDialect a)
                  | _ => Ok dialect
                  end ;;
      at1 <- match dget_at (o_at o) (lit "id") with
             | Some JNull => b <- base_of (o_at o) ;; Ok (dset str_eqb (o_at o) (lit "id") b)
             | _ => Ok (o_at o)
             end ;;
      at2 <- match dget_at at1 (lit "context") with
             | Some (JList l) => l' <- mapM check_context l ;; Ok (dset str_eqb at1 (lit "context") (JList l'))
             | _ => Ok at1
             end ;;
      Ok (MO (o_num o) (o_common o) at2 (firstn 11 (o_vals o) ++ dialect' :: rest))
  | _ => Err OtherError (* unreachable *)
  end.
(** metadata.py:1194, 1214-1217 *)
Definition Table_class : class :=
  {| cl_name := lit "Table";
     cl_fields := tablelike_fields ++ [plain (lit "suppressOutput") (JBool false) (fun j => j)];
     cl_private := [lit "_parent"; lit "_fname"];
     cl_post := fun o =>
       o' <- tablelike_post o ;;
       match nth 16 (o_vals o') (MJ JNull) with MLink _ => Ok o' | _ => Err ValueError end |}.
(** metadata.py:1463-1470, 1488.  Iterating over a dict or a str yields strings, which are ignored *)
Definition tables_field : field :=
  {| fd_name := lit "tables"; fd_default := JList [];
     fd_conv := fun j => match j with
                         | JList l => ts <- mapM (fun d => fromvalue Table_class (JObj d))
                                                 (flat_map (fun x => match x with JObj d => [d] | _ => [] end) l) ;;
                                      Ok (MObjs ts)
                         | JStr _ | JObj _ => Ok (MObjs [])
                         | _ => Err TypeError
                         end;
     fd_ser := fun omit v => match v with
                             | MObjs l => js <- mapM (fun o => d <- asdict Table_class omit o ;; Ok (JObj d)) l ;; Ok (JList js)
                             | _ => Err TypeError
                             end |}.
(** metadata.py:1474-1493 *)
Definition TableGroup_class : class :=
  {| cl_name := lit "TableGroup"; cl_fields := tablelike_fields ++ [tables_field];
     cl_private := [lit "_parent"; lit "_fname"]; cl_post := tablelike_post |}.
End Descr.
Arguments mval : clear implicits.
Arguments mobj : clear implicits.
Arguments field : clear implicits.
Arguments class : clear implicits.
