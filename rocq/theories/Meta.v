(** Partitioning of a description object's properties: metadata.py:375-467. *)
From Verif Require Import PyStr Dsv Json.

(** warnings.warn calls of metadata.py:377, :409, :464 *)
Inductive mwarn := WLink | WLanguage | WProperty (k : pystr).

(** metadata.py:48-95: the keys of NAMESPACES *)
Definition NAMESPACES : list pystr :=
  [lit "csvw"; lit "rdf"; lit "rdfs"; lit "xsd"; lit "dc"; lit "dcat"; lit "prov"; lit "schema"; lit "as";
   lit "cc"; lit "ctag"; lit "dc11"; lit "dctypes"; lit "dqv"; lit "duv"; lit "foaf"; lit "gr"; lit "grddl";
   lit "ical"; lit "jsonld"; lit "ldp"; lit "ma"; lit "oa"; lit "odrl"; lit "og"; lit "org"; lit "owl"; lit "qb";
   lit "rdfa"; lit "rev"; lit "rif"; lit "rr"; lit "sd"; lit "sioc"; lit "skos"; lit "skosxl"; lit "sosa";
   lit "ssn"; lit "time"; lit "v"; lit "vcard"; lit "void"; lit "wdr"; lit "wrds"; lit "xhv"; lit "xml"].
(** metadata.py:96-175 *)
Definition CSVW_TERMS : list pystr :=
  [lit "Cell"; lit "Column"; lit "Datatype"; lit "Dialect"; lit "Direction"; lit "ForeignKey"; lit "JSON";
   lit "NumericFormat"; lit "Row"; lit "Schema"; lit "Table"; lit "TableGroup"; lit "TableReference";
   lit "Transformation"; lit "aboutUrl"; lit "base"; lit "columnReference"; lit "columns"; lit "commentPrefix";
   lit "datatype"; lit "decimalChar"; lit "default"; lit "delimiter"; lit "describes"; lit "dialect";
   lit "doubleQuote"; lit "encoding"; lit "foreignKeys"; lit "format"; lit "groupChar"; lit "header";
   lit "headerRowCount"; lit "json"; lit "lang"; lit "length"; lit "lineTerminators"; lit "maxExclusive";
   lit "maxInclusive"; lit "maxLength"; lit "maximum"; lit "minExclusive"; lit "minInclusive"; lit "minLength";
   lit "minimum"; lit "name"; lit "notes"; lit "null"; lit "ordered"; lit "pattern"; lit "primaryKey";
   lit "propertyUrl"; lit "quoteChar"; lit "reference"; lit "referencedRows"; lit "required"; lit "resource";
   lit "row"; lit "rowTitles"; lit "rownum"; lit "schemaReference"; lit "scriptFormat"; lit "separator";
   lit "skipBlankRows"; lit "skipColumns"; lit "skipInitialSpace"; lit "skipRows"; lit "source";
   lit "suppressOutput"; lit "tableDirection"; lit "tableSchema"; lit "tables"; lit "targetFormat";
   lit "textDirection"; lit "titles"; lit "transformations"; lit "trim"; lit "uriTemplate"; lit "url";
   lit "valueUrl"; lit "virtual"].

(** utils.is_url: utils.py:14-15 *)
Definition is_url (s : pystr) : bool := startswith (lit "http://") s || startswith (lit "https://") s.

(** metadata.py:418-420: a URL, a namespace prefix or prefixed name, or a CSVW term *)
Definition known_type (s : pystr) : bool :=
  is_url s || existsb (fun ns => str_eqb s ns || startswith (ns ++ lit ":") s) NAMESPACES || str_mem s CSVW_TERMS.

(** metadata.py:375-381 valid_id_property *)
Definition valid_id_property (v : json) : res (json * list mwarn) :=
  match v with
  | JStr s => if startswith (lit "_") s then Err ValueError else Ok (v, [])
  | _ => Ok (JNull, [WLink])
  end.

Section Common.
(** language_tags.tags.check *)
Variable tag_ok : pystr -> bool.

Definition key_is (k : pystr) (kv : pystr * json) : bool := str_eqb (fst kv) k.
Definition has (k : pystr) (kvs : list (pystr * json)) : bool := existsb (key_is k) kvs.
(** isinstance(v, (str, bool, int, decimal.Decimal)) for a value from json.load *)
Definition atomic_value (v : option json) : bool :=
  match v with Some (JStr _ | JBool _ | JInt _) => true | _ => false end.
(** isinstance(v, str) and tags.check(v) *)
Definition good_language (v : json) : bool := match v with JStr s => tag_ok s | _ => false end.

(** metadata.py:386-390 *)
Definition check_at_keys (kvs : list (pystr * json)) : bool :=
  forallb (fun kv => negb (startswith (lit "@") (fst kv))
                     || str_mem (tl (fst kv)) [lit "id"; lit "language"; lit "type"; lit "value"]) kvs.
(** metadata.py:391-400 *)
Definition check_value (kvs : list (pystr * json)) : bool :=
  negb (has (lit "@value") kvs) ||
  match length kvs with
  | 0%nat | 1%nat => true
  | 2%nat => (has (lit "@language") kvs || has (lit "@type") kvs) && atomic_value (dget str_eqb kvs (lit "@value"))
  | _ => false
  end.
(** metadata.py:401-404 *)
Definition check_language (kvs : list (pystr * json)) : bool :=
  negb (has (lit "@language") kvs) || has (lit "@value") kvs.
(** metadata.py:411-426 *)
Definition check_type (kvs : list (pystr * json)) : bool :=
  match dget str_eqb kvs (lit "@type") with
  | None | Some (JList _) | Some (JObj _) => true
  | Some (JStr s) => negb (startswith (lit "_:") s) && known_type s
  | Some _ => false
  end.

(** metadata.py:384-433 valid_common_property, with the warnings it issues.  The assignments
    [v['@id'] = ..] and [del v['@language']] are applied while the items are visited: the recursive call
    on the new '@id' (a str or None) and on a valid '@language' (a str) returns it as it is.
    The code changes its argument in place as well; the model only has the returned value. *)
Fixpoint valid_common_property (v : json) : res (json * list mwarn) :=
  match v with
  | JObj kvs =>
      if negb (check_at_keys kvs) then Err ValueError else
      if negb (check_value kvs) then Err ValueError else
      if negb (check_language kvs) then Err ValueError else
      iw <- match dget str_eqb kvs (lit "@id") with
            | Some i => r <- valid_id_property i ;; Ok (snd r)
            | None => Ok [] end ;;
      let lw := match dget str_eqb kvs (lit "@language") with
                | Some l => if good_language l then [] else [WLanguage]
                | None => [] end in
      if negb (check_type kvs) then Err ValueError else
      r <- (fix go (kvs : list (pystr * json)) : res (list (pystr * json) * list mwarn) :=
              match kvs with
              | [] => Ok ([], [])
              | (k, x) :: rest =>
                  if str_eqb k (lit "@language") && negb (good_language x) then go rest
                  else
                    y <- (if str_eqb k (lit "@id") then i <- valid_id_property x ;; Ok (fst i, [])
                          else valid_common_property x) ;;
                    r <- go rest ;;
                    Ok ((k, fst y) :: fst r, snd y ++ snd r)
              end) kvs ;;
      Ok (JObj (fst r), iw ++ lw ++ snd r)
  | JList l =>
      r <- (fix go (l : list json) : res (list json * list mwarn) :=
              match l with
              | [] => Ok ([], [])
              | x :: rest => y <- valid_common_property x ;; r <- go rest ;; Ok (fst y :: fst r, snd y ++ snd r)
              end) l ;;
      Ok (JList (fst r), snd r)
  | _ => Ok (v, [])
  end.

(** The keyword arguments dict(common_props=c, at_props=a, **dd): metadata.py:467 *)
Record parts := { p_common : list (pystr * json); p_at : list (pystr * json); p_attrs : list (pystr * json) }.

Section Partition.
(** attr.fields_dict(cls), type_name or cls.__name__, strict *)
Variable fields : list pystr.
Variable type_name : pystr.
Variable strict : bool.

(** metadata.py:452-466, one item *)
Definition partition_step (acc : parts * list mwarn) (kv : pystr * json) : res (parts * list mwarn) :=
  let (p, ws) := acc in
  let (k, v) := kv in
  if startswith (lit "@") k then
    vw <- (if str_eqb k (lit "@id") then valid_id_property v else Ok (v, [])) ;;
    if str_eqb k (lit "@type") && negb (py_eq (fst vw) (JStr type_name)) then Err ValueError
    else Ok ({| p_common := p_common p; p_at := dset str_eqb (p_at p) (tl k) (fst vw); p_attrs := p_attrs p |},
             ws ++ snd vw)
  else if char_mem 58 k then
    vw <- valid_common_property v ;;
    Ok ({| p_common := dset str_eqb (p_common p) k (fst vw); p_at := p_at p; p_attrs := p_attrs p |}, ws ++ snd vw)
  else if strict && negb (str_mem k fields) then Ok (p, ws ++ [WProperty k])
  else Ok ({| p_common := p_common p; p_at := p_at p; p_attrs := dset str_eqb (p_attrs p) k v |}, ws).

Fixpoint partition_loop (acc : parts * list mwarn) (kvs : list (pystr * json)) : res (parts * list mwarn) :=
  match kvs with
  | [] => Ok acc
  | kv :: rest => a <- partition_step acc kv ;; partition_loop a rest
  end.

(** metadata.py:443-467 partition_properties.  [None]: a true value that is not a dict.  The last line,
    dict(common_props=c, at_props=a, **dd), raises TypeError if dd has one of these two keys. *)
Definition partition_properties (d : json) : res (option parts * list mwarn) :=
  match (if truthy d then match d with JObj kvs => Some kvs | _ => None end else Some []) with
  | None => Ok (None, [])
  | Some kvs =>
      r <- partition_loop ({| p_common := []; p_at := []; p_attrs := [] |}, []) kvs ;;
      if str_mem (lit "common_props") (map fst (p_attrs (fst r))) || str_mem (lit "at_props") (map fst (p_attrs (fst r)))
      then Err TypeError
      else Ok (Some (fst r), snd r)
  end.
End Partition.
End Common.
